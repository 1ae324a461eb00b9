(** Session, login and PIN calls; the invariant holds in every reachable state. *)
From Coq Require Import Permutation.
From Verif Require Import Base Ops Object ObjectProofs Store Sys SysProofs SysProofs2 SysProofs3.

(** ** Closing *)
Lemma sess_final_ok x x' : sess_final x = Ok x' -> (is_rw x = false -> ss_objs x = []) ->
  ss_h x' = ss_h x /\ ss_use x' = 0%Z /\ ss_objs x' = [] /\ ss_find x' = false.
Proof.
  unfold sess_final. intros H R. sinv. cbn. repeat split.
  destruct (in_use x) eqn:U; [reflexivity|]. apply R. unfold is_rw, in_use in *. 
  apply negb_false_iff, Z.eqb_eq in U. rewrite U. reflexivity.
Qed.
Lemma drop_unused_split l l' : drop_unused l = Ok l' -> exists p, l = p ++ l' /\
  Forall (fun x => in_use x = false /\ (SESSION_MIN < sess_id x)%Z) p.
Proof.
  induction l as [|x r IH]; cbn; intros H; [sinv; exists []; auto|].
  destruct (andb _ _) eqn:E.
  - destruct (sess_final x); cbn [bind] in H; try discriminate. destruct (IH H) as (p & -> & F).
    exists (x :: p). split; [reflexivity|]. constructor; [|exact F].
    apply andb_prop in E as [E1 E2]. apply negb_true_iff in E1. split; [assumption|lia].
  - sinv. exists []; auto.
Qed.
Lemma drop_dyn_split l l' : drop_dyn l = Ok l' -> exists p, l = p ++ l' /\
  Forall (fun x => (SESSION_MIN < sess_id x)%Z) p /\ (l' = [] \/ exists x r, l' = x :: r /\ (sess_id x <= SESSION_MIN)%Z).
Proof.
  induction l as [|x r IH]; cbn; intros H; [sinv; exists []; auto|].
  destruct (SESSION_MIN <? sess_id x)%Z eqn:E.
  - destruct (sess_final x); cbn [bind] in H; try discriminate. destruct (IH H) as (p & -> & F & G).
    exists (x :: p). repeat split; auto. constructor; [lia|exact F].
  - sinv. exists []. repeat split; auto. right. exists x, r. split; [reflexivity|lia].
Qed.
Lemma chain_app p l : chain (p ++ l) -> chain l.
Proof. induction p as [|x p IH]; cbn; [auto|]. intros [_ C]; auto. Qed.
Lemma chain_id l x r : chain l -> (zlen l <= 70)%Z -> l = x :: r -> sess_id x = zlen l.
Proof.
  intros C L ->. destruct C as [E C]. unfold sess_id. rewrite E, (chain_next r C). unfold sess_handle, zlen in *. cbn [length] in *.
  rewrite Z.add_comm, Z.mod_add by lia. rewrite Z.mod_small by lia. lia.
Qed.
Lemma zlen_app' (A : Type) (a b : list A) : zlen (a ++ b) = (zlen a + zlen b)%Z.
Proof. unfold zlen. rewrite app_length. lia. Qed.
(** A suffix left after dropping sessions with ids above the minimum. *)
Lemma suffix_len p l : chain (p ++ l) -> (2 <= zlen (p ++ l) <= 70)%Z ->
  Forall (fun x => (SESSION_MIN < sess_id x)%Z) p -> (2 <= zlen l)%Z.
Proof.
  induction p as [|x p IH]; intros C L F; [cbn in L; lia|].
  inversion F; subst. pose proof (chain_id (x :: p ++ l) x (p ++ l) C (proj2 L) eq_refl) as E.
  change (zlen (x :: p ++ l)) with (zlen (x :: (p ++ l))) in *.
  assert (Z : zlen (x :: p ++ l) = (zlen (p ++ l) + 1)%Z) by (unfold zlen; cbn [length]; lia).
  cbn [app] in L. apply IH; auto; [apply C|]. unfold SESSION_MIN in *. lia.
Qed.
Lemma Forall_suffix (A : Type) (P : A -> Prop) p l : Forall P (p ++ l) -> Forall P l.
Proof. intros F. apply Forall_app in F. apply F. Qed.

Definition sess_inv (P : Z -> Prop) (x : session) : Prop :=
  In (ss_use x) [0; SESSION_RO; SESSION_RW]%Z /\ (is_rw x = false -> ss_objs x = []).
Lemma all_objs_nil_app p l : (forall x, In x p -> ss_objs x = []) -> all_objs (p ++ l) = all_objs l.
Proof. intros H. rewrite all_objs_app. induction p as [|x p IH]; cbn; [reflexivity|]. rewrite (H x) by (left; auto). cbn. apply IH. intros; apply H; right; auto. Qed.

(** What closing leaves: sessions with their own record, or unused ones. *)
Lemma close_sess_ok l x l' : sess_ok l -> In x l -> close_sess l x = Ok l' ->
  sess_ok l' /\
  (forall y, In y l' -> (In y l /\ ss_h y <> ss_h x) \/ (ss_h y = ss_h x /\ ss_use y = 0%Z /\ ss_objs y = [])) /\
  (forall y, In y l -> ss_h y <> ss_h x -> in_use y = true -> In y l').
Proof.
  intros (C & L & F) I H. unfold close_sess in H.
  destruct (sess_final x) as [x'| |] eqn:E; cbn [bind] in H; try discriminate.
  assert (Fx : is_rw x = false -> ss_objs x = []) by (rewrite Forall_forall in F; apply F; exact I).
  apply sess_final_ok in E as (E1 & E2 & E3 & _); [|exact Fx].
  destruct l as [|y r]; [destruct I|].
  destruct (andb _ _) eqn:A.
  - apply andb_prop in A as [A1 A2]. apply Z.eqb_eq in A1.
    pose proof (chain_uniq _ C) as U.
    assert (y = x) by (apply (NoDup_map_inj _ _ ss_h (y :: r)); auto; left; auto). subst y.
    apply drop_unused_split in H as (p & -> & FP).
    assert (L2 : (2 <= zlen l')%Z).
    { apply (suffix_len (x :: p)); auto. constructor; [unfold SESSION_MIN in *; lia|].
      eapply Forall_impl; [|exact FP]. intros a [? ?]; assumption. }
    split; [|split].
    + split; [apply (chain_app (x :: p)); exact C|]. split.
      * rewrite <- (app_nil_l (x :: p ++ l')) in L. unfold zlen in *. cbn [app length] in L. rewrite app_length in L. lia.
      * apply (Forall_suffix _ _ (x :: p)); exact F.
    + intros y J. left. split; [right; apply in_or_app; auto|].
      unfold uniq in U. cbn in U. inversion U; subst. intros K. apply H1. rewrite <- K. apply in_map. apply in_or_app; auto.
    + intros y [-> | J] N K; [congruence|]. apply in_app_or in J as [J | J]; [|exact J].
      rewrite Forall_forall in FP. destruct (FP y J). congruence.
  - assert (l' = upd_sess (y :: r) x') by congruence. subst l'. split; [|split].
    + split; [|split].
      * eapply chain_modes; [|exact C]. symmetry. apply (upd_sess_h (y :: r)).
      * unfold zlen in *. unfold upd_sess. rewrite map_length. exact L.
      * rewrite Forall_forall in *. intros z J. apply in_upd_sess in J as [-> | J]; [|apply F; exact J].
        rewrite E2, E3. cbn; auto.
    + intros z J. unfold upd_sess in J. apply in_map_iff in J as (z0 & Ez & J).
      destruct (ss_h z0 =? ss_h x')%Z eqn:K; subst; [right; auto|left; split; [auto|lia]].
    + intros z J N _. apply (upd_sess_other (y :: r)); [exact J|congruence].
Qed.

Lemma final_head_ok n x r l' : final_head (S n) (x :: r) = Ok l' -> (is_rw x = false -> ss_objs x = []) ->
  exists x', l' = x' :: r /\ ss_h x' = ss_h x /\ ss_use x' = 0%Z /\ ss_objs x' = [].
Proof.
  revert x. induction n as [|n IH]; intros x H R; cbn [final_head] in H;
    destruct (sess_final x) as [x'| |] eqn:E; cbn [bind] in H; try discriminate;
    apply sess_final_ok in E as (E1 & E2 & E3 & _); auto.
  - injection H as <-. exists x'. auto.
  - apply IH in H; auto. destruct H as (x2 & -> & ? & ? & ?). exists x2. repeat split; auto; congruence.
Qed.
(** After WP11_Slot_CloseSessions two sessions are left, the first as it was. *)
Lemma close_all_ok l l' : sess_ok l -> close_all l = Ok l' ->
  exists p b a b', l = p ++ [b; a] /\ l' = [b'; a] /\ ss_h a = sess_handle 1 /\ ss_h b' = ss_h b /\
    ss_h b = sess_handle 2 /\ ss_use b' = 0%Z /\ ss_objs b' = [] /\ sess_ok l'.
Proof.
  intros (C & L & F) H. unfold close_all in H.
  destruct (drop_dyn l) as [l1| |] eqn:D; cbn [bind] in H; try discriminate.
  apply drop_dyn_split in D as (p & -> & FP & T).
  pose proof (suffix_len p l1 C L FP) as L1.
  pose proof (chain_app _ _ C) as C1. pose proof (Forall_suffix _ _ _ _ F) as F1.
  destruct T as [-> | (b & r & -> & Tb)]; [unfold zlen in L1; cbn in L1; lia|].
  assert (L70 : (zlen (b :: r) <= 70)%Z) by (rewrite zlen_app' in L; unfold zlen in *; lia).
  pose proof (chain_id (b :: r) b r C1 L70 eq_refl) as E.
  unfold SESSION_MIN in *. destruct r as [|a [|a2 r]]; [unfold zlen in *; cbn in *; lia| |unfold zlen in *; cbn [length] in *; lia].
  cbn [length] in H. apply final_head_ok in H as (b' & -> & E1 & E2 & E3); [|inversion F1; subst; tauto].
  exists p, b, a, b'. destruct C1 as (Cb & Ca & _). cbn in Ca. cbn in Cb. rewrite Ca in Cb.
  split; [reflexivity|]. split; [reflexivity|]. split; [exact Ca|]. split; [exact E1|].
  split; [rewrite Cb; unfold sess_handle; lia|]. split; [exact E2|]. split; [exact E3|].
  split; [|split].
  - cbn. rewrite E1, Cb, Ca. auto.
  - unfold zlen; cbn; lia.
  - inversion F1 as [|? ? Fb Fa]; subst. constructor; [|exact Fa]. rewrite E2, E3. cbn; auto.
Qed.

Section W.
Variable w : world.

(** ** The objects through login and logout *)
Definition ident (o : obj) : obj := set_store (set_data o KZero) (o_iv o) None false.
Lemma Decode_ident key o c o' : Decode (w_se w) key o = Ok (c, o') -> ident o' = ident o /\ o_keyData o' = o_keyData o.
Proof.
  unfold Decode, DecodeKey. intros H. destruct (is_cert o); [sinv; split; reflexivity|].
  match type of H with bind ?r _ = _ => destruct r as [[c1 o1]| |] eqn:E; cbn [bind] in H; try discriminate end.
  assert (G : forall c d, ident (snd (fin o c d)) = ident o /\ o_keyData (snd (fin o c d)) = o_keyData o).
  { intros c0 d. unfold fin. destruct (c0 =? 0)%Z; split; reflexivity. }
  assert (K : forall c0 d r, r = fin o c0 d -> ident (snd r) = ident o /\ o_keyData (snd r) = o_keyData o) by (intros; subst; apply G).
  injection H as <- <-. change o1 with (snd (c1, o1)).
  sinv; try (split; reflexivity).
  all: match goal with
    | H : fin ?o ?c ?d = ?r |- _ => symmetry in H; exact (K _ _ _ H)
    | |- context [fin ?o ?c ?d] => apply G
    | _ => idtac end.
  all: destruct (is_priv o); repeat match goal with
    | H : context [let '(_, _) := ?x in _] |- _ => destruct x
    | H : (if ?b then _ else _) = _ |- _ => destruct b
    end;
    match goal with H : fin ?o ?c ?d = ?r |- _ => symmetry in H; exact (K _ _ _ H) end.
Qed.
Lemma decode_all_ident key l c l' : decode_all w key l = Ok (c, l') -> map ident l' = map ident l /\ map o_keyData l' = map o_keyData l.
Proof.
  revert c l'. induction l as [|o r IH]; cbn; intros c l' H; [sinv; auto|].
  destruct (Decode _ _ _) as [[c1 o1]| |] eqn:D; cbn [bind] in H; try discriminate.
  apply Decode_ident in D as [D1 D2].
  destruct (negb _); [sinv; cbn; split; f_equal; auto|].
  destruct (decode_all _ _ _) as [[c2 r1]| |]; cbn [bind] in H; try discriminate. sinv.
  destruct (IH _ _ eq_refl). cbn. split; f_equal; auto.
Qed.
Lemma core_ident o o' : core_obj o' = core_obj o -> o_iv o' = o_iv o -> ident o' = ident o.
Proof. unfold core_obj, ident, set_store, set_data. destruct o, o'. cbn. intros E ->. injection E; intros; subst; reflexivity. Qed.
Lemma EncodeKey_iv key o c o' : EncodeKey (w_se w) key o = Ok (c, o') -> o_iv o' = o_iv o.
Proof.
  unfold EncodeKey, enc_asym. intros H.
  destruct (o_type o =? CKK_RSA)%Z; [|destruct (o_type o =? CKK_EC)%Z; [|destruct (o_type o =? CKK_DH)%Z; [|destruct (is_sym o)]]];
  sinv; try reflexivity.
Qed.
Lemma Encode_ident key p o c o' : Encode (w_se w) key p o = Ok (c, o') -> ident o' = ident o.
Proof.
  unfold Encode. intros H. destruct (is_cert o); [sinv; auto|].
  destruct (EncodeKey _ _ _) as [[c1 o1]| |] eqn:E; cbn [bind] in H; try discriminate.
  injection H as <- <-. transitivity (ident o1).
  - destruct (andb _ _); [|reflexivity]. unfold protect_key.
    repeat match goal with |- context [if ?b then _ else _] => destruct b end; reflexivity.
  - apply core_ident; [eapply EncodeKey_core; eauto|eapply EncodeKey_iv; eauto].
Qed.
Lemma encode_all_ident key l l' : encode_all w key l = Ok l' -> map ident l' = map ident l.
Proof.
  revert l'. induction l as [|o r IH]; cbn; intros l' H; [sinv; auto|].
  destruct (Encode _ _ _ _) as [[c1 o1]| |] eqn:D; cbn [bind] in H; try discriminate.
  apply Encode_ident in D.
  destruct (negb _); [sinv; cbn; f_equal; auto|].
  destruct (encode_all _ _ _) as [r1| |]; cbn [bind] in H; try discriminate. sinv.
  cbn. f_equal; auto.
Qed.
Lemma ident_uids l l' : map ident l = map ident l' -> uids l = uids l'.
Proof.
  intros E. unfold uids. transitivity (map o_uid (map ident l)); [rewrite map_map; reflexivity|].
  rewrite E, map_map. reflexivity.
Qed.

(** ** Token functions *)
Definition same_auth (t t' : token) : Prop :=
  t_label t' = t_label t /\ t_init t' = t_init t /\ t_seed t' = t_seed t.
Lemma Logout_ok t t' : Logout w t = Ok t' ->
  t_login t' = RW_PUBLIC /\ map ident (t_objs t') = map ident (t_objs t) /\
  t_so t' = t_so t /\ t_user t' = t_user t /\ t_key t' = t_key t /\ same_auth t t' /\
  (t_login t <> RW_USER -> t_login t <> RO_USER -> t_objs t' = t_objs t).
Proof.
  unfold Logout. intros H. destruct (orb _ _) eqn:O.
  - destruct (encode_all _ _ _) eqn:E; cbn [bind] in H; try discriminate. sinv. cbn. apply encode_all_ident in E.
    repeat split; auto. intros A B. apply orb_prop in O as [O | O]; apply Z.eqb_eq in O; contradiction.
  - sinv. cbn. repeat split; auto.
Qed.
Lemma SOLogin_ok l t a now c t' : SOLogin w l t a now = (c, t') ->
  t_objs t' = t_objs t /\ t_user t' = t_user t /\ t_key t' = t_key t /\ same_auth t t' /\
  p_hash (t_so t') = p_hash (t_so t) /\ p_len (t_so t') = p_len (t_so t) /\ p_seed (t_so t') = p_seed (t_so t) /\
  ((c <> 0 /\ t_login t' = t_login t)%Z \/
   (c = 0%Z /\ t_login t' = RW_SO /\ logged_in (t_login t) = false /\ existsb (fun x => ss_use x =? SESSION_RO)%Z l = false)).
Proof.
  unfold SOLogin. destruct now as [n|]; [|intros [= <- <-]; repeat split; auto; left; split; [discriminate|reflexivity]].
  destruct (logged_in (t_login t)) eqn:LI; [intros [= <- <-]; repeat split; auto; left; split; [discriminate|reflexivity]|].
  destruct (lock_check (t_so t) n) as [p|] eqn:LC; [|intros [= <- <-]; repeat split; auto; left; split; [discriminate|reflexivity]].
  assert (P : p_hash p = p_hash (t_so t) /\ p_len p = p_len (t_so t) /\ p_seed p = p_seed (t_so t)).
  { unfold lock_check in LC. destruct (_ =? _)%Z; [destruct (_ <? _)%Z|]; try discriminate LC; injection LC as <-; auto. }
  destruct P as (P1 & P2 & P3).
  destruct (existsb _ l); [intros [= <- <-]; cbn; repeat split; auto; left; split; [discriminate|reflexivity]|].
  destruct (CheckPin w (set_so t p) p a =? PIN_INVALID_E)%Z eqn:E1; [|destruct (CheckPin w (set_so t p) p a =? 0)%Z eqn:E2].
  - intros [= <- <-]. cbn. unfold count_fail. destruct (_ =? MAX_FAILS)%Z; cbn; repeat split; auto; left; split; auto;
      apply Z.eqb_eq in E1; rewrite E1; discriminate.
  - intros [= <- <-]. cbn. repeat split; auto.
  - intros [= <- <-]. cbn. repeat split; auto. left. split; auto. apply Z.eqb_neq in E2. exact E2.
Qed.
Lemma UserLogin_ok t a now c t' : UserLogin w t a now = Ok (c, t') ->
  map ident (t_objs t') = map ident (t_objs t) /\ map o_keyData (t_objs t') = map o_keyData (t_objs t) /\
  t_so t' = t_so t /\ same_auth t t' /\
  p_hash (t_user t') = p_hash (t_user t) /\ p_len (t_user t') = p_len (t_user t) /\ p_seed (t_user t') = p_seed (t_user t) /\
  ((c <> 0 /\ t_login t' = t_login t)%Z \/
   (c = 0%Z /\ t_login t' = RW_USER /\ logged_in (t_login t) = false)).
Proof.
  unfold UserLogin. destruct now as [n|]; [|intros [= <- <-]; repeat split; auto; left; split; [discriminate|reflexivity]].
  destruct (logged_in (t_login t)) eqn:LI; [intros [= <- <-]; repeat split; auto; left; split; [discriminate|reflexivity]|].
  destruct (lock_check (t_user t) n) as [p|] eqn:LC; [|intros [= <- <-]; repeat split; auto; left; split; [discriminate|reflexivity]].
  assert (P : p_hash p = p_hash (t_user t) /\ p_len p = p_len (t_user t) /\ p_seed p = p_seed (t_user t)).
  { unfold lock_check in LC. destruct (_ =? _)%Z; [destruct (_ <? _)%Z|]; try discriminate LC; injection LC as <-; auto. }
  destruct P as (P1 & P2 & P3). cbv zeta.
  destruct (CheckPin w (set_user t p) p a =? PIN_INVALID_E)%Z eqn:E1; [|destruct (CheckPin w (set_user t p) p a =? 0)%Z eqn:E2].
  - intros [= <- <-]. cbn. unfold count_fail. destruct (_ =? MAX_FAILS)%Z; cbn; repeat split; auto; left; split; auto;
      apply Z.eqb_eq in E1; rewrite E1; discriminate.
  - intros H. destruct (decode_all _ _ _) as [[c2 l2]| |] eqn:D; cbn [bind] in H; try discriminate.
    apply decode_all_ident in D as [D1 D2]. cbn in D1, D2.
    destruct (c2 =? 0)%Z eqn:C2; sinv; cbn; repeat split; auto.
    left. split; auto. apply Z.eqb_neq in C2; exact C2.
  - intros [= <- <-]. cbn. repeat split; auto. left. split; auto. apply Z.eqb_neq in E2. exact E2.
Qed.

(** ** Loading *)
Lemma read_obj_file_id uid ty f o g : read_obj_file uid ty f = Ok (o, g) ->
  o_uid o = uid /\ o_type o = ty /\ o_enc o = false.
Proof. unfold read_obj_file. intros H. sinv. cbn. auto. Qed.
Lemma load_obj_id d uid ty id o : load_obj (w_se w) d uid ty id = Ok o -> o_uid o = uid /\ o_type o = ty /\ o_enc o = false.
Proof.
  unfold load_obj. intros H.
  destruct (open_read d _); cbn [bind] in H; try discriminate.
  destruct (read_obj_file _ _ _) as [[o1 g]| |] eqn:R; cbn [bind] in H; try discriminate.
  apply read_obj_file_id in R. destruct (key_kind o1); [|discriminate].
  destruct (open_read d _); cbn [bind] in H; try discriminate.
  unfold read_key_file in H. sinv; cbn; auto.
Qed.
Lemma load_objs_uids d uid tys l : load_objs (w_se w) d uid tys = Ok l -> uids l = seq uid (length tys).
Proof.
  revert uid l. induction tys as [|ty r IH]; cbn; intros uid l H; [sinv; auto|].
  destruct (load_obj _ _ _ _ _) as [o| |] eqn:L; cbn [bind] in H; try discriminate.
  destruct (load_objs _ _ _ _) as [l1| |] eqn:L1; cbn [bind] in H; try discriminate. sinv.
  cbn. apply load_obj_id in L as (-> & _). f_equal. apply IH; exact L1.
Qed.
Lemma Token_Load_ok d uid t : Token_Load (w_se w) d uid = Ok t ->
  t_login t = RW_PUBLIC /\ uids (t_objs t) = seq uid (length (t_objs t)).
Proof.
  unfold Token_Load. intros H. destruct (d _) as [f|]; [|sinv; auto].
  destruct (load_all _ _ _ _) as [t1| |] eqn:L; sinv; auto.
  unfold load_all in L. destruct (read_tok_file f) as [[tf g]| |]; cbn [bind] in L; try discriminate.
  destruct (load_objs _ _ _ _) as [l| |] eqn:LO; cbn [bind] in L; try discriminate. injection L as <-.
  apply load_objs_uids in LO. split; [reflexivity|]. change (uids l = seq uid (length l)). rewrite LO. f_equal.
  rewrite <- (seq_length (length (tf_types tf)) uid), <- LO. unfold uids. apply map_length.
Qed.

(** ** The invariant *)
Lemma inv0 d : inv (sys0 d).
Proof. split; [cbn; lia|]. split; [reflexivity|]. split; [split; constructor|]. split; [cbn; auto|]. cbn. discriminate. Qed.

Lemma inv_tok s t l : inv s -> uids (t_objs t) = uids (t_objs (s_tok s)) \/ t_objs t = [] ->
  In (t_login t) [RW_PUBLIC; RW_USER; RW_SO] ->
  (t_login t = RW_SO -> Forall (fun x => ss_use x <> SESSION_RO) (s_sess s)) ->
  inv (mkSys (s_count s) (s_sess s) t (s_fs l) (s_log l) (s_uid s)).
Proof.
  intros (A & B & (N & F) & D) U L R. split; [exact A|]. split; [exact B|]. split; [|split; auto].
  unfold uid_ok, live in *. cbn. rewrite !uids_app in *. destruct U as [-> | ->]; [split; assumption|].
  cbn. split.
  - clear F. induction (uids (t_objs (s_tok s))); cbn in N; [exact N|]. inversion N; auto.
  - apply Forall_app in F. apply F.
Qed.
Lemma store_inv rnd s c s' : store w rnd s = Ok (c, s') -> inv s -> inv s'.
Proof.
  intros H I. pose proof (store_frame _ _ _ _ _ H) as (E1 & E2 & E3 & E4 & E5).
  destruct s' as [a b t d l u]. cbn in *. subst.
  apply (inv_tok s t (mkSys 0 [] t d l 0)); auto.
  - left. apply core_uids; exact E5.
  - apply tok0_eq in E4 as (_ & _ & _ & _ & _ & _ & E4). rewrite E4. apply I.
  - apply tok0_eq in E4 as (_ & _ & _ & _ & _ & _ & E4). rewrite E4. apply I.
Qed.
Lemma set_pin_inv s t : inv s -> t_objs t = t_objs (s_tok s) -> t_login t = t_login (s_tok s) -> inv (set_tok s t).
Proof.
  intros I E L. apply (inv_tok s t s); auto; [left; congruence| |]; rewrite L; apply I.
Qed.

Lemma open_inv s x rw l : inv s -> (0 < s_count s)%Z -> sess_ok l -> all_objs l = all_objs (s_sess s) ->
  (t_login (s_tok s) = RW_SO -> rw = true) ->
  (forall y, In y l -> In y (s_sess s) \/ y = x) ->
  In x l -> ss_use x = 0%Z ->
  inv (put_sess (set_sess s l) (set_use x (if rw then SESSION_RW else SESSION_RO))).
Proof.
  intros (A & B & C & D1 & D2) Cn (S1 & S2 & S3) O SO Sub X Ux.
  assert (Ox : ss_objs x = []).
  { rewrite Forall_forall in S3. apply S3; [exact X|]. unfold is_rw. rewrite Ux. reflexivity. }
  pose proof (chain_uniq _ S1) as U.
  split; [|split; [|split]].
  - intros _. cbn. split; [|split].
    + eapply chain_modes; [|exact S1]. rewrite upd_sess_h. reflexivity.
    + unfold zlen, upd_sess in *. rewrite map_length. exact S2.
    + rewrite Forall_forall in *. intros y J. apply in_upd_sess in J as [-> | J]; [|apply S3; exact J].
      cbn [set_use ss_use ss_objs]. rewrite Ox. split; [destruct rw; cbn; auto|auto].
  - cbn. lia.
  - destruct (live_put_sess (set_sess s l) x (set_use x (if rw then SESSION_RW else SESSION_RO)))
      as (a & b & E1 & E2); auto.
    apply (uid_ok_perm s); [|cbn; lia|exact C]. rewrite E2. cbn [set_use ss_objs]. rewrite <- E1.
    unfold live. cbn. rewrite O. apply Permutation_refl.
  - split; [exact D1|]. cbn. intros L. specialize (SO L). subst rw. apply Forall_forall. intros y J.
    apply in_upd_sess in J as [-> | J]; [cbn; discriminate|].
    specialize (D2 L). rewrite Forall_forall in D2. destruct (Sub y J) as [K | ->]; [apply D2; exact K|].
    rewrite Ux. discriminate.
Qed.
Lemma new_sess_ok l : sess_ok l -> (zlen l < 70)%Z -> sess_ok (add_sess l) /\ all_objs (add_sess l) = all_objs l.
Proof.
  intros (C & L & F) L70. split; [|reflexivity]. split; [|split].
  - split; [|exact C]. cbn. unfold next_h. destruct l; reflexivity.
  - unfold zlen, add_sess in *. cbn [length]. lia.
  - constructor; [|exact F]. cbn. auto.
Qed.

Lemma OpenSession_ok s fl s' o : inv s -> (0 < s_count s)%Z -> OpenSession s fl = Ok (s', o) ->
  (s' = s /\ exists rv, o = OutRv rv /\ rv <> CKR_OK /\
     (rv = CKR_SESSION_COUNT -> zlen (s_sess s) = 70%Z /\ Forall (fun x => in_use x = true) (s_sess s))) \/
  (exists l x, let rw := negb (Z.land fl CKF_RW_SESSION =? 0)%Z in
     s' = put_sess (set_sess s l) (set_use x (if rw then SESSION_RW else SESSION_RO)) /\ o = OutH CKR_OK (ss_h x) /\
     sess_ok l /\ all_objs l = all_objs (s_sess s) /\ (t_login (s_tok s) = RW_SO -> rw = true) /\
     (forall y, In y l -> In y (s_sess s) \/ y = x) /\ (forall y, In y (s_sess s) -> In y l) /\ In x l /\ ss_use x = 0%Z /\
     (In x (s_sess s) \/ ss_h x = next_h (s_sess s))).
Proof.
  intros I Cn H. unfold OpenSession in H.
  destruct (_ =? 0)%Z; [sinv; left; split; [reflexivity|]; eexists; split; [reflexivity|]; split; discriminate|].
  destruct (andb _ _) eqn:SO; [sinv; left; split; [reflexivity|]; eexists; split; [reflexivity|]; split; discriminate|].
  assert (SO' : t_login (s_tok s) = RW_SO -> negb (Z.land fl CKF_RW_SESSION =? 0)%Z = true).
  { intros L. rewrite L in SO. cbn in SO. rewrite andb_true_r in SO. rewrite negb_false_iff in SO. exact SO. }
  pose proof (proj1 I Cn) as OK.
  destruct (first_unused (s_sess s)) as [x|] eqn:FU.
  - right. unfold first_unused in FU. apply find_some in FU as [FU1 FU2].
    apply negb_true_iff in FU2. unfold in_use in FU2. apply negb_false_iff, Z.eqb_eq in FU2.
    exists (s_sess s), x. sinv. repeat split; auto; apply OK.
  - assert (AU : Forall (fun x => in_use x = true) (s_sess s)).
    { apply Forall_forall. intros x J. apply (find_none _ _ FU) in J. apply negb_false_iff in J. exact J. }
    destruct OK as (C & L & F). 
    assert (HD : exists x r, s_sess s = x :: r) by (destruct (s_sess s) as [|x r]; [unfold zlen in L; cbn in L; lia|eauto]).
    destruct HD as (hd & tl & HD).
    pose proof (chain_id (s_sess s) hd tl C (proj2 L) HD) as HI.
    destruct (match s_sess s with [] => false | x :: _ => _ end) eqn:M.
    + left. sinv. split; [reflexivity|]. eexists; split; [reflexivity|]. split; [discriminate|]. intros _. split; [|exact AU].
      rewrite HD in M. apply Z.eqb_eq in M. unfold SESSION_MAX in M. lia.
    + right. rewrite HD in M. apply Z.eqb_neq in M. unfold SESSION_MAX in M.
      destruct (new_sess_ok (s_sess s)) as [N1 N2]; [split; [exact C|split; [exact L|exact F]]|lia|].
      exists (add_sess (s_sess s)), (new_sess (s_sess s)). sinv. repeat split; auto; try apply N1.
      * intros y [<- | J]; auto.
      * right. exact H.
      * left; reflexivity.
Qed.

Lemma forall_sub (P : session -> Prop) l l' : (forall y, In y l' -> In y l \/ P y) -> Forall P l -> Forall P l'.
Proof. intros S F. rewrite Forall_forall in *. intros y J. destruct (S y J); auto. Qed.
Lemma uid_ok_sub s s' : s_uid s' = s_uid s -> NoDup (uids (live s')) ->
  (forall u, In u (uids (live s')) -> In u (uids (live s))) -> uid_ok s -> uid_ok s'.
Proof. intros E N S [_ F]. split; [exact N|]. rewrite E. rewrite Forall_forall in *. auto. Qed.

Inductive subseq {A : Type} : list A -> list A -> Prop :=
  | sub_nil : subseq [] []
  | sub_skip x a b : subseq a b -> subseq a (x :: b)
  | sub_keep x a b : subseq a b -> subseq (x :: a) (x :: b).
Lemma subseq_refl (A : Type) (l : list A) : subseq l l.
Proof. induction l; [apply sub_nil|apply sub_keep; auto]. Qed.
Lemma subseq_in (A : Type) (a b : list A) x : subseq a b -> In x a -> In x b.
Proof. induction 1; cbn; intuition. Qed.
Lemma subseq_nodup (A : Type) (a b : list A) : subseq a b -> NoDup b -> NoDup a.
Proof.
  induction 1; intros N; auto; inversion N; subst; auto. constructor; auto. intros J. eapply subseq_in in J; eauto.
Qed.
Lemma subseq_app (A : Type) (a b c d : list A) : subseq a b -> subseq c d -> subseq (a ++ c) (b ++ d).
Proof. induction 1; cbn; intros; [assumption|apply sub_skip|apply sub_keep]; auto. Qed.
Lemma subseq_map (A B : Type) (f : A -> B) a b : subseq a b -> subseq (map f a) (map f b).
Proof. induction 1; cbn; [apply sub_nil|apply sub_skip|apply sub_keep]; auto. Qed.
Lemma subseq_nil (A : Type) (l : list A) : subseq [] l.
Proof. induction l; [apply sub_nil|apply sub_skip; auto]. Qed.
Lemma subseq_pre (A : Type) (p l : list A) : subseq l (p ++ l).
Proof. induction p; cbn; [apply subseq_refl|apply sub_skip; auto]. Qed.
(** Sessions are dropped from the front or emptied. *)
Lemma close_sess_sub l x l' : sess_ok l -> In x l -> close_sess l x = Ok l' -> subseq (all_objs l') (all_objs l).
Proof.
  intros (C & L & F) I H. unfold close_sess in H.
  destruct (sess_final x) as [x'| |] eqn:E; cbn [bind] in H; try discriminate.
  assert (Fx : is_rw x = false -> ss_objs x = []) by (rewrite Forall_forall in F; apply F; exact I).
  apply sess_final_ok in E as (E1 & E2 & E3 & _); [|exact Fx].
  destruct l as [|y r]; [destruct I|].
  destruct (andb _ _) eqn:A.
  - apply drop_unused_split in H as (p & -> & _). cbn. rewrite all_objs_app.
    rewrite app_assoc. apply subseq_pre.
  - assert (l' = upd_sess (y :: r) x') by congruence. subst l'. destruct (upd_split _ _ (chain_uniq _ C) I) as (l1 & l2 & El & G).
    rewrite (G x' E1), El, !all_objs_app. cbn. rewrite E3. cbn. apply subseq_app; [apply subseq_refl|apply subseq_pre].
Qed.

Lemma sess_inv_step s l : inv s -> (0 < s_count s)%Z -> sess_ok l -> subseq (all_objs l) (all_objs (s_sess s)) ->
  (forall y, In y l -> In y (s_sess s) \/ ss_use y = 0%Z) -> inv (set_sess s l).
Proof.
  intros (A & B & C & D1 & D2) Cn S O M. split; [|split; [|split]].
  - intros _. exact S.
  - cbn. lia.
  - assert (Sq : subseq (uids (live (set_sess s l))) (uids (live s))).
    { unfold live. cbn. apply subseq_map, subseq_app; [apply subseq_refl|exact O]. }
    apply (uid_ok_sub s); [reflexivity| | |exact C].
    + eapply subseq_nodup; [exact Sq|apply C].
    + intros u. apply subseq_in. exact Sq.
  - split; [exact D1|]. intros L. cbn in *. specialize (D2 L). eapply forall_sub; [|exact D2].
    intros y J. destruct (M y J) as [K|K]; [left; exact K|right]. rewrite K. discriminate.
Qed.
Lemma Logout_inv s t : inv s -> Logout w (s_tok s) = Ok t -> inv (set_tok s t).
Proof.
  intros I L. apply Logout_ok in L as (L1 & L2 & _). apply (inv_tok s t s); auto.
  - left. apply ident_uids; exact L2.
  - rewrite L1. cbn; auto.
  - rewrite L1. discriminate.
Qed.
Lemma close_sub_sess s l p b a b' : s_sess s = p ++ [b; a] -> l = [b'; a] -> ss_objs b' = [] ->
  subseq (all_objs l) (all_objs (s_sess s)).
Proof.
  intros -> -> E. rewrite all_objs_app. cbn. rewrite E. cbn. rewrite app_assoc. apply subseq_pre.
Qed.

Lemma step_inv rnd s c s' o : inv s -> step w rnd s c = Ok (s', o) -> inv s'.
Proof.
  intros I H. destruct (objop c) as [h|] eqn:O.
  { eapply prims_inv; [eapply objop_prims; eauto|exact I]. }
  destruct c; try discriminate O; cbn [step] in H; unfold with_slot, with_sess, need_lib in H.
  - (* Initialize *) unfold Initialize in H. destruct (s_count s =? 0)%Z eqn:C0.
    + destruct (Token_Load _ _ _) as [t| |] eqn:L; cbn [bind] in H; try discriminate. sinv.
      apply Token_Load_ok in L as [L1 L2]. split; [|split; [cbn; lia|]].
      * intros _. cbn. split; [cbn; auto|]. split; [unfold zlen; cbn; lia|]. repeat constructor; cbn; auto.
      * split; [|split; cbn; rewrite L1; [auto|discriminate]]. unfold uid_ok, live. cbn. rewrite app_nil_r, L2. split.
        -- apply seq_NoDup.
        -- apply Forall_forall. intros u J. apply in_seq in J. lia.
    + sinv. apply Z.eqb_neq in C0. destruct I as (A & B & C & D). split; [|split; [|split]]; cbn; auto.
      * intros L. apply A. lia.
      * intros L. apply B. lia.
  - (* Finalize *) unfold Finalize in H. destruct (s_count s - 1 =? 0)%Z eqn:C0.
    + sinv. split; [cbn; lia|]. split; [reflexivity|]. split; [split; constructor|]. split; cbn; auto.
    + sinv. apply Z.eqb_neq in C0. destruct I as (A & B & C & D). split; [|split; [|split]]; cbn; auto.
      * intros L. apply A. lia.
      * intros L. apply B. lia.
  - sinv. split; [cbn; lia|]. split; [reflexivity|]. split; [split; constructor|]. split; cbn; auto.
  - (* InitToken *) destruct (0 <? _)%Z; [|sinv; exact I]. destruct (slot_ok slot); [|sinv; exact I].
    unfold InitToken in H. repeat match type of H with (if ?b then rv_ _ _ else _) = _ => destruct b; [sinv; exact I|] end.
    destruct (TokenReset _ _ _ _ _) as [[c s1]| |] eqn:T; cbn [bind] in H; try discriminate. sinv.
    unfold TokenReset in T. destruct (free_all _); cbn [bind] in T; try discriminate. destruct (zlen _ <? 32)%Z; [discriminate|]. unfold SetSOPin in T.
    apply store_inv in T; auto. cbn [set_tok s_tok]. 
    match goal with |- inv (set_tok _ ?t) => apply (inv_tok s t s) end; auto; cbn; auto. discriminate.
  - (* InitPIN *) destruct (0 <? _)%Z; [|sinv; exact I]. destruct (sess_get s h); [|sinv; exact I].
    unfold InitPIN in H. repeat match type of H with (if ?b then rv_ _ _ else _) = _ => destruct b; [sinv; exact I|] end.
    destruct (SetUserPin _ _ _ _) as [[c s1]| |] eqn:T; cbn [bind] in H; try discriminate. sinv.
    unfold SetUserPin in T. eapply store_inv; [exact T|]. apply set_pin_inv; auto.
  - (* SetPIN *) destruct (0 <? _)%Z; [|sinv; exact I]. destruct (sess_get s h); [|sinv; exact I].
    unfold SetPIN in H. cbv zeta in H. repeat match type of H with (if ?b then rv_ _ _ else _) = _ => destruct b; [sinv; exact I|] end.
    match type of H with bind ?r _ = _ => destruct r as [[c s1]| |] eqn:T end; cbn [bind] in H; try discriminate.
    unfold rv_ in H. injection H as <- _. destruct (_ =? _)%Z; [unfold SetSOPin in T|unfold SetUserPin in T]; (eapply store_inv; [exact T|apply set_pin_inv; auto]).
  - (* OpenSession *) destruct (0 <? s_count s)%Z eqn:Cn; [|sinv; exact I]. destruct (slot_ok slot); [|sinv; exact I].
    apply Z.ltb_lt in Cn. apply OpenSession_ok in H as [[-> _] | (l & x & -> & _ & ?)]; auto.
    apply open_inv; try tauto. 
  - (* CloseSession *) destruct (0 <? s_count s)%Z eqn:Cn; [|sinv; exact I]. destruct (sess_get s h) as [x|] eqn:G; [|sinv; exact I].
    apply Z.ltb_lt in Cn. apply sess_get_in in G as (X & Hx & Ux & _).
    unfold CloseSession in H. destruct (close_sess _ _) as [l| |] eqn:CL; cbn [bind] in H; try discriminate.
    pose proof (close_sess_sub _ _ _ (proj1 I Cn) X CL) as Sb.
    apply close_sess_ok in CL as (K1 & K2 & K3); [|apply I; exact Cn|exact X].
    assert (I1 : inv (set_sess s l)).
    { apply sess_inv_step; auto. intros y J. destruct (K2 y J) as [[? _] | (_ & ? & _)]; auto. }
    destruct (existsb in_use l); [sinv; exact I1|].
    destruct (Logout _ _) as [t| |] eqn:L; cbn [bind] in H; try discriminate. sinv. eapply Logout_inv; eauto.
  - (* CloseAllSessions *) destruct (0 <? s_count s)%Z eqn:Cn; [|sinv; exact I]. destruct (slot_ok slot); [|sinv; exact I].
    apply Z.ltb_lt in Cn. destruct (close_all _) as [l| |] eqn:CL; cbn [bind] in H; try discriminate. sinv.
    apply close_all_ok in CL as (p & b & a & b' & E1 & E2 & E3 & E4 & E5 & E6 & E7 & E8); [|apply I; exact Cn].
    apply sess_inv_step; auto.
    + eapply close_sub_sess; eauto.
    + subst l. intros y [<- | [<- | []]]; auto. left. rewrite E1. apply in_or_app. right; right; left; reflexivity.
  - (* Login *) destruct (0 <? _)%Z; [|sinv; exact I]. destruct (sess_get s h); [|sinv; exact I].
    unfold Login in H. destruct (negb _); [sinv; exact I|].
    destruct (ut =? CKU_SO)%Z; [|destruct (ut =? CKU_USER)%Z; [|destruct (ut =? CKU_CONTEXT_SPECIFIC)%Z; sinv; exact I]].
    + destruct (SOLogin _ _ _ _ _) as [c t] eqn:L. sinv. apply SOLogin_ok in L as (L1 & _ & _ & _ & _ & _ & _ & L2).
      apply (inv_tok s t s); auto; [left; congruence| |].
      * destruct L2 as [[_ ->] | (_ & -> & _)]; [apply I|cbn; auto].
      * destruct L2 as [[_ ->] | (_ & -> & _ & L2)]; [apply I|]. intros _. apply Forall_forall. intros x J.
        intros K. apply not_true_iff_false in L2. apply L2. apply existsb_exists. exists x. split; [exact J|]. rewrite K. reflexivity.
    + destruct (UserLogin _ _ _ _) as [[c t]| |] eqn:L; cbn [bind] in H; try discriminate. sinv.
      apply UserLogin_ok in L as (L1 & _ & _ & _ & _ & _ & _ & L2). 
      apply (inv_tok s t s); auto; [left; apply ident_uids; exact L1| |].
      * destruct L2 as [[_ ->] | (_ & -> & _)]; [apply I|cbn; auto].
      * destruct L2 as [[_ ->] | (_ & -> & _)]; [apply I|discriminate].
  - destruct (0 <? _)%Z; [|sinv; exact I]. destruct (sess_get s h); [|sinv; exact I].
    destruct (Logout _ _) as [t| |] eqn:L; cbn [bind] in H; try discriminate. sinv. eapply Logout_inv; eauto.
  - destruct (0 <? _)%Z; [|sinv; exact I]. destruct (slot_ok slot); sinv; exact I.
Qed.
Lemma reach_inv d s : reach w (sys0 d) s -> inv s.
Proof. induction 1; [apply inv0|]. eapply step_inv; eauto. Qed.
End W.
