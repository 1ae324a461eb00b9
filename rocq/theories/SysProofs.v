(** What the calls of Sys.v leave unchanged: sessions, login state, PINs. *)
From Verif Require Import Base Ops Object ObjectProofs Store Sys.

Ltac sinv :=
  repeat match goal with
  | H : bind ?r _ = Ok _ |- _ => let E := fresh "E" in destruct r eqn:E; cbn [bind] in H; try discriminate H
  | H : Ok _ = Ok _ |- _ => injection H; clear H; intros; subst
  | H : (_, _) = (_, _) |- _ => injection H; clear H; intros; subst
  | H : Undef _ = Ok _ |- _ => discriminate H
  | H : Err _ = Ok _ |- _ => discriminate H
  | H : rv_ _ _ = Ok _ |- _ => unfold rv_ in H
  | H : (let '(_, _) := ?x in _) = Ok _ |- _ => let E := fresh "E" in destruct x eqn:E; try discriminate H
  | H : (match ?x with _ => _ end) = Ok _ |- _ => let E := fresh "E" in destruct x eqn:E; try discriminate H
  end.

Arguments upd_sess : simpl never.
(** ** Lists *)
Definition modes (l : list session) : list (Z * Z) := map (fun x => (ss_h x, ss_use x)) l.
Lemma modes_h l : map fst (modes l) = map ss_h l.
Proof. unfold modes. rewrite map_map. reflexivity. Qed.
Lemma modes_use l : map snd (modes l) = map ss_use l.
Proof. unfold modes. rewrite map_map. reflexivity. Qed.

Lemma NoDup_map_inj (A B : Type) (f : A -> B) (l : list A) x y :
  NoDup (map f l) -> In x l -> In y l -> f x = f y -> x = y.
Proof.
  induction l as [|a l IH]; cbn; intros N Hx Hy E; [contradiction|].
  inversion N as [|? ? Na N']; subst.
  destruct Hx as [-> | Hx], Hy as [-> | Hy]; auto.
  - exfalso. apply Na. rewrite E. apply in_map; exact Hy.
  - exfalso. apply Na. rewrite <- E. apply in_map; exact Hx.
Qed.

Definition uniq (l : list session) : Prop := NoDup (map ss_h l).

Lemma upd_sess_map (A : Type) (f : session -> A) l x x' :
  uniq l -> In x l -> ss_h x' = ss_h x -> f x' = f x -> map f (upd_sess l x') = map f l.
Proof.
  unfold uniq, upd_sess. intros N I Eh Ef. rewrite map_map. apply map_ext_in.
  intros y Hy. destruct (ss_h y =? ss_h x')%Z eqn:E; [|reflexivity].
  assert (y = x) by (apply (NoDup_map_inj _ _ ss_h l); auto; lia). subst. exact Ef.
Qed.
Lemma upd_sess_modes l x x' :
  uniq l -> In x l -> ss_h x' = ss_h x -> ss_use x' = ss_use x -> modes (upd_sess l x') = modes l.
Proof. intros. unfold modes. apply (upd_sess_map _ (fun x => (ss_h x, ss_use x)) l x x'); auto. congruence. Qed.
Lemma upd_sess_h l x' : map ss_h (upd_sess l x') = map ss_h l.
Proof.
  unfold upd_sess. rewrite map_map. apply map_ext. intros y.
  destruct (ss_h y =? ss_h x')%Z eqn:E; [lia|reflexivity].
Qed.
Lemma upd_sess_other l x y : In y l -> ss_h y <> ss_h x -> In y (upd_sess l x).
Proof.
  intros I N. unfold upd_sess. apply in_map_iff. exists y. split; [|exact I].
  destruct (ss_h y =? ss_h x)%Z eqn:E; [lia|reflexivity].
Qed.
Lemma upd_sess_self l x x' : In x l -> ss_h x' = ss_h x -> In x' (upd_sess l x').
Proof.
  intros I N. unfold upd_sess. apply in_map_iff. exists x. split; [|exact I].
  destruct (ss_h x =? ss_h x')%Z eqn:E; [reflexivity|lia].
Qed.

Lemma find_sess_in l h x : find_sess l h = Some x -> In x l /\ ss_h x = h.
Proof. unfold find_sess. intros F. apply find_some in F. destruct F; split; [assumption|lia]. Qed.
Lemma find_sess_uniq l x : uniq l -> In x l -> find_sess l (ss_h x) = Some x.
Proof.
  intros N I. destruct (find_sess l (ss_h x)) as [y|] eqn:F.
  - apply find_sess_in in F as [I' E']. f_equal. apply (NoDup_map_inj _ _ ss_h l); auto.
  - exfalso. unfold find_sess in F. apply (find_none _ _ F) in I. lia.
Qed.
Lemma sess_get_in s h x : sess_get s h = Some x ->
  In x (s_sess s) /\ ss_h x = h /\ in_use x = true /\ slot_ok (h / 2^16) = true.
Proof.
  unfold sess_get. destruct (slot_ok _) eqn:S; [|discriminate].
  destruct (find_sess _ _) as [y|] eqn:F; [|discriminate].
  destruct (in_use y) eqn:U; [|discriminate]. injection 1; intros; subst.
  apply find_sess_in in F as [? ?]. auto.
Qed.

(** ** Erasing what storing may change *)
Definition core_obj (o : obj) : obj := set_store o [] None (o_enc o).
Definition tok0 (t : token) : token := set_objs t [].

Lemma tok0_set_objs t l : tok0 (set_objs t l) = tok0 t.
Proof. reflexivity. Qed.
Lemma tok0_eq t t' : tok0 t = tok0 t' ->
  t_label t = t_label t' /\ t_init t = t_init t' /\ t_so t = t_so t' /\ t_user t = t_user t' /\
  t_seed t = t_seed t' /\ t_key t = t_key t' /\ t_login t = t_login t'.
Proof. unfold tok0, set_objs. injection 1; intros. repeat split; assumption. Qed.

Section W.
Variable w : world.
Notation se := (w_se w).

Lemma EncodeKey_core key o c o' : EncodeKey se key o = Ok (c, o') -> core_obj o' = core_obj o.
Proof.
  unfold EncodeKey, enc_asym. intros H.
  destruct (o_type o =? CKK_RSA)%Z; [|destruct (o_type o =? CKK_EC)%Z; [|destruct (o_type o =? CKK_DH)%Z; [|destruct (is_sym o)]]];
  sinv; try reflexivity.
Qed.
Lemma store_kd_core key f o c o' ws : store_kd se key f o = Ok (c, o', ws) -> core_obj o' = core_obj o.
Proof.
  unfold store_kd. intros H. destruct (o_keyData o).
  - cbn [bind] in H. sinv; reflexivity.
  - sinv; eapply EncodeKey_core; eassumption.
Qed.
Lemma store_key_core key id o c o' ws : store_key se key id o = Ok (c, o', ws) -> core_obj o' = core_obj o.
Proof.
  unfold store_key. intros H. destruct (is_cert o).
  - sinv; reflexivity.
  - destruct (key_kind o); [|sinv; reflexivity].
    destruct (o_type o =? CKK_DH)%Z; sinv; try (eapply store_kd_core; eassumption).
Qed.
Lemma store_obj_core key r id o c o' ws : store_obj se key r id o = Ok (c, o', ws) -> core_obj o' = core_obj o.
Proof.
  unfold store_obj. intros H. sinv. apply store_key_core in E0. rewrite E0.
  destruct (o_keyData o); [reflexivity|]. destruct (orb _ _); reflexivity.
Qed.
Lemma store_objs_core key r l c l' ws : store_objs se key r l = Ok (c, l', ws) -> map core_obj l' = map core_obj l.
Proof.
  revert c l' ws. induction l as [|o l IH]; cbn; intros c l' ws H; [sinv; reflexivity|].
  sinv.
  - cbn. f_equal. eapply store_obj_core; eassumption.
  - cbn. f_equal; [eapply store_obj_core; eassumption|eapply IH; reflexivity].
Qed.
Lemma store_frame rnd s c s' : store w rnd s = Ok (c, s') ->
  s_count s' = s_count s /\ s_sess s' = s_sess s /\ s_uid s' = s_uid s /\
  tok0 (s_tok s') = tok0 (s_tok s) /\ map core_obj (t_objs (s_tok s')) = map core_obj (t_objs (s_tok s)).
Proof.
  unfold store, Token_Store. intros H. sinv. cbn. repeat split; auto. eapply store_objs_core; eassumption.
Qed.

(** ** Calls that concern objects only *)
Definition quiet (s s' : sys) : Prop :=
  s_count s' = s_count s /\ modes (s_sess s') = modes (s_sess s) /\ tok0 (s_tok s') = tok0 (s_tok s).
Lemma quiet_refl s : quiet s s.
Proof. repeat split. Qed.
Lemma quiet_trans a b c : quiet a b -> quiet b c -> quiet a c.
Proof. unfold quiet. intros (? & ? & ?) (? & ? & ?). repeat split; congruence. Qed.
Lemma modes_uniq l l' : modes l = modes l' -> uniq l -> uniq l'.
Proof. unfold uniq. intros E. rewrite <- !modes_h, E. auto. Qed.
Lemma quiet_uniq s s' : quiet s s' -> uniq (s_sess s) -> uniq (s_sess s').
Proof. intros (_ & E & _). apply modes_uniq. auto. Qed.

Lemma store_quiet rnd s c s' : store w rnd s = Ok (c, s') -> quiet s s'.
Proof. intros H. apply store_frame in H as (? & E & _ & ? & _). repeat split; auto. rewrite E. reflexivity. Qed.
Lemma put_sess_quiet s x x' : uniq (s_sess s) -> In x (s_sess s) -> ss_h x' = ss_h x -> ss_use x' = ss_use x ->
  quiet s (put_sess s x').
Proof. intros. repeat split. cbn. eapply upd_sess_modes; eauto. Qed.
Lemma bump_quiet s n : quiet s (bump s n).
Proof. repeat split. Qed.
Lemma put_obj_quiet s o : quiet s (put_obj s o).
Proof. repeat split. cbn. unfold modes. rewrite map_map. reflexivity. Qed.


(** ** Elementary changes made by the calls on objects, through session [h] *)
Definition uids (l : list obj) : list nat := map o_uid l.
Definition same_id (o o' : obj) : Prop :=
  o_uid o' = o_uid o /\ o_type o' = o_type o /\ o_handle o' = o_handle o /\ o_onTok o' = o_onTok o /\
  o_iv o' = o_iv o /\ o_keyData o' = o_keyData o /\ o_enc o' = o_enc o.
(** Objects as the creating calls make them, before they are added. *)
Inductive made : obj -> Prop :=
  | md_create rw u t rv o : CreateObject (w_oe w) rw u t = Ok (rv, Some o) -> made o
  | md_new rw u ty cl t rv o : NewObject (w_oe w) rw u ty cl t = Ok (rv, Some o) ->
      In (ty, cl) [(CKK_AES, CKO_SECRET_KEY); (CKK_RSA, CKO_PUBLIC_KEY); (CKK_EC, CKO_PUBLIC_KEY); (CKK_DH, CKO_PUBLIC_KEY);
                   (CKK_RSA, CKO_PRIVATE_KEY); (CKK_EC, CKO_PRIVATE_KEY); (CKK_DH, CKO_PRIVATE_KEY)] -> made o
  | md_copy rw u src t rv t1 b o : CopyObject (w_oe w) rw u src t = Ok (rv, t1, Some (b, o)) -> made o
  | md_gen o l b k : made o -> as_sym o = Ok (l, b) ->
      made (set_data o (KSym l (overlay b (firstn (Z.to_nat l) (k ++ zeros SYM_BUF)))))
  | md_pair m p q g p' q' : made p -> made q ->
      (match m with KP_RSA => RsaGen p q g | KP_EC => EcGen p q g | _ => DhGen p q g end) = Ok (Some (p', q')) ->
      made p'
  | md_pair2 m p q g p' q' : made p -> made q ->
      (match m with KP_RSA => RsaGen p q g | KP_EC => EcGen p q g | _ => DhGen p q g end) = Ok (Some (p', q')) ->
      made q'
  | md_rsa o r : made o -> made (set_data o (KRsa r))
  | md_derive o sec c o' : made o -> SetSecretKey o [None; Some sec] = Ok (c, o') -> made o'.
(** The calls that create objects. *)
Definition creates (c : op) : bool :=
  match c with
  | OCreateObject _ _ | OCopyObject _ _ _ | OGenerateKey _ _ _ _ | OGenerateKeyPair _ _ _ _ _ | OUnwrapKey _ _ _ _ _ _ | ODeriveKey _ _ _ _ _ => true
  | _ => false
  end.
(** Elementary changes made by call [cl] through session [h]. *)
Inductive prim (cl : op) (h : Z) : sys -> sys -> Prop :=
  | pr_sess s x x' : In x (s_sess s) -> in_use x = true -> ss_h x = h ->
      ss_h x' = h -> ss_use x' = ss_use x -> ss_objs x' = ss_objs x -> prim cl h s (put_sess s x')
  | pr_bump s n : prim cl h s (bump s n)
  | pr_store s x rnd c s' : In x (s_sess s) -> is_rw x = true -> ss_h x = h ->
      store w rnd s = Ok (c, s') -> (creates cl = true \/ exists ho, cl = ODestroyObject h ho) -> prim cl h s s'
  | pr_adds s x o : In x (s_sess s) -> is_rw x = true -> ss_h x = h -> (zlen (ss_objs x) < SESS_OBJ_MAX)%Z ->
      (o_uid o < s_uid s)%nat -> ~ In (o_uid o) (uids (live s)) ->
      o_handle o = next_handle (ss_objs x) 0 -> o_onTok o = false ->
      (exists o1, made o1 /\ o = set_handle (set_onTok o1 false) (next_handle (ss_objs x) 0)) -> creates cl = true ->
      prim cl h s (put_sess s (set_sobjs x (o :: ss_objs x)))
  | pr_addt s x b o : In x (s_sess s) -> is_rw x = true -> ss_h x = h -> (zlen (t_objs (s_tok s)) < TOK_OBJ_MAX)%Z ->
      (o_uid o < s_uid s)%nat -> ~ In (o_uid o) (uids (live s)) -> b <> 0%N ->
      o_handle o = next_handle (t_objs (s_tok s)) b -> o_onTok o = N.odd b -> 
      (exists o1 o2, made o1 /\ Encode se (t_key (s_tok s)) false (set_onTok o1 (N.odd b)) = Ok (0%Z, o2) /\
         o = set_handle o2 (next_handle (t_objs (s_tok s)) b)) -> creates cl = true ->
      prim cl h s (set_tok s (set_objs (s_tok s) (o :: t_objs (s_tok s))))
  | pr_rems s x o : In x (s_sess s) -> is_rw x = true -> ss_h x = h -> In o (ss_objs x) ->
      (exists ho, cl = ODestroyObject h ho /\ find_obj s x ho = Some o) ->
      prim cl h s (put_sess s (set_sobjs x (remove_uid (o_uid o) (ss_objs x))))
  | pr_remt s x o : In x (s_sess s) -> is_rw x = true -> ss_h x = h -> In o (t_objs (s_tok s)) -> o_onTok o = true ->
      (exists ho, cl = ODestroyObject h ho /\ find_obj s x ho = Some o) ->
      prim cl h s (do_ops (set_tok s (set_objs (s_tok s) (remove_uid (o_uid o) (t_objs (s_tok s)))))
                     (Unstore (behind (o_uid o) (t_objs (s_tok s))) o))
  | pr_set s x o o' : In x (s_sess s) -> is_rw x = true -> ss_h x = h ->
      In o (t_objs (s_tok s) ++ ss_objs x) -> same_id o o' ->
      (exists ho t rv, cl = OSetAttributeValue h ho t /\ find_obj s x ho = Some o /\ SetAttributeValue (w_oe w) true o t = Ok (rv, o')) -> prim cl h s (put_obj s o').
Inductive prims (cl : op) (h : Z) : sys -> sys -> Prop :=
  | prs_0 s : prims cl h s s
  | prs_1 s s1 s2 : prim cl h s s1 -> prims cl h s1 s2 -> prims cl h s s2.
Lemma prims_trans cl h a b c : prims cl h a b -> prims cl h b c -> prims cl h a c.
Proof. induction 1; auto. intros. eapply prs_1; eauto. Qed.
Lemma prims_one cl h a b : prim cl h a b -> prims cl h a b.
Proof. intros. eapply prs_1; [eassumption|apply prs_0]. Qed.

(** ** Invariant *)
Definition next_h (l : list session) : Z := match l with [] => sess_handle 1 | x :: _ => (ss_h x + 1)%Z end.
(** Handles are consecutive, ending with the first. *)
Fixpoint chain (l : list session) : Prop :=
  match l with [] => True | x :: r => ss_h x = next_h r /\ chain r end.
Definition sess_ok (l : list session) : Prop :=
  chain l /\ (2 <= zlen l <= 70)%Z /\
  Forall (fun x => In (ss_use x) [0; SESSION_RO; SESSION_RW]%Z /\ (is_rw x = false -> ss_objs x = [])) l.
Definition uid_ok (s : sys) : Prop :=
  NoDup (uids (live s)) /\ Forall (fun u => u < s_uid s)%nat (uids (live s)).
Definition login_ok (s : sys) : Prop :=
  In (t_login (s_tok s)) [RW_PUBLIC; RW_USER; RW_SO] /\
  (t_login (s_tok s) = RW_SO -> Forall (fun x => ss_use x <> SESSION_RO) (s_sess s)).
Definition inv (s : sys) : Prop :=
  ((0 < s_count s)%Z -> sess_ok (s_sess s)) /\ ((s_count s <= 0)%Z -> s_sess s = []) /\ uid_ok s /\ login_ok s.

(** ** Chains *)
Lemma chain_handles l : chain l -> map ss_h l = map sess_handle (rev (map Z.of_nat (seq 1 (length l)))).
Proof.
  induction l as [|x r IH]; [reflexivity|]. intros [E C].
  cbn [map length]. rewrite (IH C). rewrite seq_S, !map_app, rev_app_distr. cbn.
  f_equal. rewrite E. unfold next_h. destruct r as [|y r'].
  - reflexivity.
  - destruct C as [E' C']. assert (H : ss_h y = sess_handle (Z.of_nat (length (y :: r')))).
    { specialize (IH (conj E' C')). cbn [map length] in IH.
      rewrite seq_S, !map_app, rev_app_distr in IH. cbn in IH. injection IH as IH _. rewrite IH. f_equal. }
    rewrite H. unfold sess_handle. cbn [length]. lia.
Qed.
Lemma chain_next l : chain l -> next_h l = sess_handle (zlen l + 1).
Proof.
  destruct l as [|x r]; [reflexivity|]. intros C. apply chain_handles in C. cbn [map length] in C.
  rewrite seq_S, !map_app, rev_app_distr in C. cbn in C. injection C as C _.
  cbn [next_h]. rewrite C. unfold sess_handle, zlen. cbn [length]. lia.
Qed.
Lemma chain_range l x : chain l -> In x l -> (sess_handle 1 <= ss_h x <= sess_handle (zlen l))%Z.
Proof.
  intros C I. assert (H : In (ss_h x) (map ss_h l)) by (apply in_map; exact I).
  rewrite (chain_handles l C) in H. apply in_map_iff in H. destruct H as (n & <- & H).
  apply in_rev in H. apply in_map_iff in H. destruct H as (k & <- & H). apply in_seq in H.
  unfold sess_handle, zlen. lia.
Qed.
Lemma chain_uniq l : chain l -> uniq l.
Proof.
  induction l as [|x r IH]; intros C; [constructor|]. cbn. constructor.
  - intros I. apply in_map_iff in I. destruct I as (y & E & I).
    destruct C as [C1 C2]. pose proof (chain_range r y C2 I). rewrite C1, chain_next in E by exact C2.
    unfold sess_handle in *. lia.
  - apply IH. apply C.
Qed.
Lemma chain_modes l l' : map ss_h l = map ss_h l' -> chain l -> chain l'.
Proof.
  revert l'. induction l as [|x r IH]; intros [|y r'] E C; try discriminate; auto.
  cbn in E. injection E as E1 E2. destruct C as [C1 C2]. split; [|apply IH; auto].
  rewrite <- E1, C1. unfold next_h. destruct r, r'; try discriminate; auto. cbn in E2. injection E2 as -> _. reflexivity.
Qed.
Lemma inv_uniq s : inv s -> uniq (s_sess s).
Proof.
  intros (A & B & _). destruct (Z.ltb_spec 0 (s_count s)) as [L|L].
  - apply chain_uniq, A, L.
  - rewrite (B L). constructor.
Qed.
End W.
