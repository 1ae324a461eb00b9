(** New objects and what their origin marks say; the fields C_SetAttributeValue changes. *)
From Verif Require Import Base Ops Object ObjectProofs Store Sys SysProofs SysProofs2 SysProofs3 SysProofs4 ObjFrame HeapProofs AttrFrame.
From Coq Require Import Permutation.

(** ** Origin *)
Definition mark (o : obj) : bool * Z := (o_local o, o_kgm o).
(** What the calls that make objects write into CKA_LOCAL and CKA_KEY_GEN_MECHANISM. *)
Definition mark_of (c : op) : bool * Z :=
  match c with
  | OGenerateKeyPair _ KP_RSA _ _ _ => (true, 0)
  | OGenerateKeyPair _ KP_EC _ _ _ => (true, 0x1040)
  | OGenerateKeyPair _ _ _ _ _ => (true, 0x20)
  | _ => (false, UNAVAILABLE)
  end%Z.

Definition newer (P : obj -> Prop) (s s' : sys) : Prop := forall o, In o (live s') -> (exists p, In p (live s) /\ face o = face p) \/ P o.
Lemma newer_trans P a b c : newer P a b -> (forall o o', P o -> face o' = face o -> P o') -> newer P b c -> newer P a c.
Proof.
  intros A R B o I. destruct (B o I) as [(p & J & E)|Q]; [|auto]. destruct (A p J) as [(q & K & F)|Q]; [left; exists q; split; [exact K|congruence]|right; eapply R; eauto].
Qed.
Lemma newer_under P s s' : under s' s -> newer P s s'.
Proof. intros U o I. left. exact (U o I). Qed.
Lemma newer_same P s s' : live s' = live s -> newer P s s'.
Proof. intros E. apply newer_under, under_in. rewrite E. auto. Qed.

Section W.
Variable w : world.
Notation oe := (w_oe w).

Lemma SetKey_mark o v c o1 : SetKey oe o v = Ok (c, o1) -> mark o1 = mark o.
Proof. intros K. apply SetKey_frame in K as (d & n & ->). reflexivity. Qed.
Lemma SetAttributeValue_mark rw o t rv o' : SetAttributeValue oe rw o t = Ok (rv, o') -> mark o' = mark o.
Proof.
  unfold SetAttributeValue. intros H. destruct (negb rw); [injection H as _ <-; reflexivity|]. destruct (negb _); [injection H as _ <-; reflexivity|].
  destruct (params_of o); [|injection H as _ <-; reflexivity]. destruct (param_vals t l); [|injection H as _ <-; reflexivity].
  destruct (SetKey oe o l0) as [[c o1]| |] eqn:K; cbn [bind] in H; try discriminate. apply SetKey_mark in K.
  destruct (c =? MEMORY_E)%Z; [injection H as _ <-; exact K|]. destruct (negb _); [injection H as _ <-; exact K|].
  apply set_loop_core in H as (_ & _ & _ & _ & A & _ & B & _). rewrite <- K. unfold mark. rewrite A, B. reflexivity.
Qed.
Lemma NewObject_mark rw u ty cl t rv o : NewObject oe rw u ty cl t = Ok (rv, Some o) -> mark o = (false, UNAVAILABLE).
Proof.
  unfold NewObject. intros H. destruct (SetAttributeValue _ _ _ _) as [[c o1]| |] eqn:E; cbn [bind] in H; try discriminate.
  injection H as -> H. destruct (rv =? CKR_OK)%Z; [|discriminate]. injection H as ->. apply SetAttributeValue_mark in E. rewrite E. reflexivity.
Qed.
Lemma CreateObject_mark rw u t rv o : CreateObject oe rw u t = Ok (rv, Some o) -> mark o = (false, UNAVAILABLE).
Proof.
  unfold CreateObject. intros H. sinv; try (eapply NewObject_mark; eassumption).
  all: destruct (_ =? CKO_CERTIFICATE)%Z in *; sinv; try (eapply NewObject_mark; eassumption).
Qed.
Lemma CopyObject_mark rw u src t rv t' b o : CopyObject oe rw u src t = Ok (rv, t', Some (b, o)) -> mark o = (false, UNAVAILABLE).
Proof.
  unfold CopyObject. intros H. destruct (tmpl_token t); [|discriminate].
  destruct (GetAttributeValue _ _ _) as [[c1 t1]| |]; cbn [bind] in H; try discriminate. destruct (negb _); [discriminate|].
  destruct (SetAttributeValue _ _ _ _) as [[c o1]| |] eqn:E; cbn [bind] in H; try discriminate.
  injection H as -> -> H. destruct (rv =? CKR_OK)%Z; [|discriminate]. injection H as -> ->. apply SetAttributeValue_mark in E. rewrite E. reflexivity.
Qed.
Lemma pair_mark h m tp tq g0 pub priv g p q :
  (match m with KP_RSA => RsaGen pub priv g | KP_EC => EcGen pub priv g | _ => DhGen pub priv g end) = Ok (Some (p, q)) ->
  mark p = mark_of (OGenerateKeyPair h m tp tq g0) /\ mark q = mark_of (OGenerateKeyPair h m tp tq g0).
Proof. destruct m; cbn; unfold RsaGen, EcGen, DhGen; intros H; sinv; auto. Qed.

(** The object a call adds: number [u] or later, mark [m]. *)
Definition bears (u : nat) (m : bool * Z) (o : obj) : Prop := (u <= o_uid o)%nat /\ mark o = m.
Lemma bears_face u m o o' : bears u m o -> face o' = face o -> bears u m o'.
Proof. intros [A B] E. split; [rewrite (face_uid _ _ E); exact A|]. rewrite <- B. exact (f_equal mark E). Qed.
Lemma add_new rnd s x b o c h s' : uniq (s_sess s) -> In x (s_sess s) -> AddToSession w rnd s x b o = Ok (c, h, s') ->
  newer (bears (o_uid o) (mark o)) s s'.
Proof.
  unfold AddToSession. intros U I H. destruct (b =? 0)%N.
  - destruct (_ <=? _)%Z; injection H as <- <- <-; [apply newer_under, under_refl|].
    destruct (live_put_sess s x (set_sobjs x (set_handle (set_onTok o (N.odd b)) (next_handle (ss_objs x) b) :: ss_objs x)) U I eq_refl) as (p & q & E1 & E2).
    intros y Y. rewrite E2 in Y. cbn [set_sobjs ss_objs] in Y. rewrite in_app_iff in Y. destruct Y as [Y|[<-|Y]].
    + left. exists y. split; [rewrite E1, in_app_iff; auto|reflexivity].
    + right. split; [cbn; lia|reflexivity].
    + left. exists y. split; [rewrite E1, in_app_iff; auto|reflexivity].
  - destruct (_ <=? _)%Z; [injection H as <- <- <-; apply newer_under, under_refl|]. destruct (Encode _ _ _ _) as [[c1 o2]| |] eqn:E; cbn [bind] in H; try discriminate.
    destruct (negb _); [injection H as <- <- <-; apply newer_under, under_refl|].
    destruct (store w rnd _) as [[c2 s1]| |] eqn:S; cbn [bind] in H; try discriminate. injection H as <- <- <-. apply store_under in S.
    intros y Y. destruct (S y Y) as (p & P & F). unfold live in P. cbn [set_tok s_tok s_sess set_objs t_objs app] in P. destruct P as [P|P].
    + right. apply Encode_ident in E. apply (bears_face _ _ p); [|exact F]. subst p. split; [apply (f_equal o_uid) in E; cbn in *; lia|]. apply (f_equal mark) in E. exact E.
    + left. exists p. split; [exact P|exact F].
Qed.
Lemma addo_new rnd s x t o c h s' : uniq (s_sess s) -> In x (s_sess s) -> AddObject w rnd s x t o = Ok (c, h, s') -> newer (bears (o_uid o) (mark o)) s s'.
Proof.
  unfold AddObject. intros U I H. destruct (tmpl_token t); [|injection H as <- <- <-; apply newer_under, under_refl].
  destruct (AddToSession _ _ _ _ _ _) as [[[c1 h1] s1]| |] eqn:A; cbn [bind] in H; try discriminate. injection H as <- <- <-. eapply add_new; eauto.
Qed.
Lemma newer_bump P s n s' : newer P (bump s n) s' -> newer P s s'.
Proof. intros N o I. exact (N o I). Qed.

Lemma Create_new rnd s x t s' o : inv s -> In x (s_sess s) -> Create w rnd s x t = Ok (s', o) -> newer (bears (s_uid s) (false, UNAVAILABLE)) s s'.
Proof.
  unfold Create. intros V I H. destruct (CreateObject _ _ _ _) as [[rv [ob|]]| |] eqn:C; cbn [bind] in H; try discriminate.
  - destruct (AddObject _ _ _ _ _ _) as [[[c h] s1]| |] eqn:A; cbn [bind] in H; try discriminate. injection H as <- <-. rewrite <- (CreateObject_mark _ _ _ _ _ C). apply CreateObject_id in C as (_ & <- & _). apply (newer_bump _ s 1). eapply addo_new; [| |exact A]; [exact (inv_uniq s V)|exact I].
  - unfold rv_ in H. injection H as <- <-. apply newer_same. reflexivity.
Qed.
Lemma Copy_new rnd s x src t s' o : inv s -> In x (s_sess s) -> Copy w rnd s x src t = Ok (s', o) -> newer (bears (s_uid s) (false, UNAVAILABLE)) s s'.
Proof.
  unfold Copy. intros V I H. destruct (CopyObject _ _ _ _ _) as [[[rv t1] [[b ob]|]]| |] eqn:C; cbn [bind] in H; try discriminate.
  - destruct (AddToSession _ _ _ _ _ _) as [[[c h] s1]| |] eqn:A; cbn [bind] in H; try discriminate. injection H as <- <-. rewrite <- (CopyObject_mark _ _ _ _ _ _ _ _ C). apply CopyObject_id in C as (_ & <- & _). apply (newer_bump _ s 1). eapply add_new; [| |exact A]; [exact (inv_uniq s V)|exact I].
  - unfold rv_ in H. injection H as <- <-. apply newer_same. reflexivity.
Qed.
Lemma GenKey_new rnd s x t key s' o : inv s -> In x (s_sess s) -> GenKey w rnd s x t key = Ok (s', o) -> newer (bears (s_uid s) (false, UNAVAILABLE)) s s'.
Proof.
  intros V I H. unfold GenKey in H. destruct (NewObject _ _ _ _ _ _) as [[rv [ob|]]| |] eqn:C; cbn [bind] in H; try discriminate.
  - destruct (as_sym ob) as [[l b]| |]; cbn [bind] in H; try discriminate. destruct (_ <? _)%Z; [discriminate|]. destruct (AddObject _ _ _ _ _ _) as [[[c h] s1]| |] eqn:A; cbn [bind] in H; try discriminate. injection H as <- <-.
    rewrite <- (NewObject_mark _ _ _ _ _ _ _ C). apply NewObject_id in C as (_ & <- & _). apply (newer_bump _ (s) 1).
    match type of A with AddObject _ _ _ _ _ ?ob' = _ => change (o_uid ob) with (o_uid ob'); change (mark ob) with (mark ob') end. eapply addo_new; [| |exact A]; [exact (inv_uniq s V)|exact I].
  - unfold rv_ in H. injection H as <- <-. apply newer_same. reflexivity.
Qed.
Lemma Unwrap_new rnd s x m mp uk wr t s' o : inv s -> In x (s_sess s) -> Unwrap w rnd s x m mp uk wr t = Ok (s', o) -> newer (bears (s_uid s) (false, UNAVAILABLE)) s s'.
Proof.
  intros V I H. unfold Unwrap in H. destruct (negb (is_cbc_pad m)); [injection H as <- <-; apply newer_same; reflexivity|].
  cbv beta zeta in H. destruct (find_last t CKA_KEY_TYPE) as [a|]; [|injection H as <- <-; apply newer_same; reflexivity]. destruct (tmpl_ulong a) as [v|]; [|injection H as <- <-; apply newer_same; reflexivity].
  destruct (negb _); [injection H as <- <-; apply newer_same; reflexivity|]. destruct (find_last t CKA_CLASS) as [a2|]; [|injection H as <- <-; apply newer_same; reflexivity]. destruct (tmpl_ulong a2) as [v2|]; [|injection H as <- <-; apply newer_same; reflexivity].
  destruct (negb _); [injection H as <- <-; apply newer_same; reflexivity|]. destruct (negb _); [injection H as <- <-; apply newer_same; reflexivity|]. destruct (negb _); [injection H as <- <-; apply newer_same; reflexivity|].
  destruct (run_init _ _ _ _ _) as [[x1 o1]| |] eqn:R1; cbn [bind] in H; try discriminate.
  assert (Q1 : exists p, x1 = set_op x p). { unfold run_init in R1. match type of R1 with bind ?A _ = _ => destruct A end; cbn [bind] in R1; try discriminate. match type of R1 with bind ?A _ = _ => destruct A as [[p r]| |] end; cbn [bind] in R1; try discriminate. injection R1 as <- <-. exists p. reflexivity. }
  assert (L : forall y p, y = set_op x p -> live (put_sess s y) = live s).
  { intros y p ->. destruct (live_put_sess s x (set_op x p) (inv_uniq s V) I eq_refl) as (f & g & E1 & E2). rewrite E1, E2. reflexivity. }
  destruct (negb _); [injection H as <- <-; apply newer_same; destruct Q1 as [p E]; exact (L _ _ E)|].
  destruct (run_cont _ _ _ _) as [[x2 o2]| |] eqn:R2; cbn [bind] in H; try discriminate.
  assert (Q2 : exists p, x2 = set_op x p). { unfold run_cont in R2. match type of R2 with bind ?A _ = _ => destruct A end; cbn [bind] in R2; try discriminate. match type of R2 with bind ?A _ = _ => destruct A as [[p r]| |] end; cbn [bind] in R2; try discriminate. injection R2 as <- <-. destruct Q1 as [q ->]. exists p. reflexivity. }
  destruct Q2 as [p E2]. specialize (L _ _ E2).
  destruct (negb _); [injection H as <- <-; apply newer_same; exact L|].
  destruct (NewObject _ _ _ _ _ _) as [[rv [ob|]]| |] eqn:C; cbn [bind] in H; try discriminate; [|injection H as <- <-; apply newer_same; exact L].
  destruct (w_p8_dec w (o_out o2)) as [c r]. destruct (negb _); [injection H as <- <-; apply newer_same; exact L|].
  destruct (AddObject _ _ _ _ _ _) as [[[c3 h3] s4]| |] eqn:A; cbn [bind] in H; try discriminate. injection H as <- <-. rewrite <- (NewObject_mark _ _ _ _ _ _ _ C). apply NewObject_id in C as (_ & C & _). change (s_uid (put_sess s x2)) with (s_uid s) in C. rewrite <- C.
  change (o_uid ob) with (o_uid (set_data ob (KRsa r))). change (mark ob) with (mark (set_data ob (KRsa r))).
  assert (N : newer (bears (o_uid (set_data ob (KRsa r))) (mark (set_data ob (KRsa r)))) (put_sess s x2) s4).
  { apply (newer_bump _ (put_sess s x2) 1). eapply addo_new; [| |exact A].
    - cbn [bump set_uid s_sess put_sess set_sess]. unfold uniq, upd_sess. rewrite map_map. erewrite map_ext; [exact (inv_uniq s V)|]. intros y. cbn beta. destruct (Z.eqb_spec (ss_h y) (ss_h x2)) as [Eh|]; [symmetry; exact Eh|reflexivity].
    - cbn [bump set_uid s_sess put_sess set_sess]. unfold upd_sess. apply in_map_iff. exists x. split; [|exact I]. rewrite E2. cbn. rewrite Z.eqb_refl. reflexivity. }
  intros y Y. destruct (N y Y) as [(z & Z & F)|Q]; [left; exists z; rewrite <- L; auto|right; exact Q].
Qed.
Lemma Derive_new rnd s x m b sec t s' o : inv s -> In x (s_sess s) -> Derive w rnd s x m b sec t = Ok (s', o) -> newer (bears (s_uid s) (false, UNAVAILABLE)) s s'.
Proof.
  intros V I H. unfold Derive in H.
  assert (Q : match sec with None => rv_ s CKR_FUNCTION_FAILED | Some sec => '(rv, o) <- CreateObject (w_oe w) (is_rw x) (s_uid s) t ;;
     let s1 := bump s 1 in match o with None => rv_ s1 rv | Some o => '(c, _, d) <- GetAttr (w_oe w) o CKA_VALUE_LEN (Some 8%Z) ;;
      if negb (c =? 0)%Z then rv_ s1 CKR_OK else let vl := u32 (ulong_of d) in let sl := if andb (0 <? vl)%Z (vl <=? zlen sec)%Z then vl else zlen sec in
      if (sl <? zlen sec)%Z then Undef UB_read_overflow else '(c2, o1) <- SetSecretKey o [None; Some sec] ;;
      if negb (c2 =? 0)%Z then rv_ s1 CKR_FUNCTION_FAILED else '(rv2, h, s2) <- AddObject w rnd s1 x t o1 ;; Ok (s2, OutH rv2 h) end end = Ok (s', o) ->
    newer (bears (s_uid s) (false, UNAVAILABLE)) s s').
  { clear H. intros H. destruct sec as [sec|]; [|injection H as <- <-; apply newer_same; reflexivity]. destruct (CreateObject _ _ _ _) as [[rv [ob|]]| |] eqn:C; cbn [bind] in H; try discriminate.
    2:{ unfold rv_ in H. injection H as <- <-. apply newer_same. reflexivity. }
    destruct (GetAttr _ _ _ _) as [[[c0 l0] d]| |]; cbn [bind] in H; try discriminate. destruct (negb _); [injection H as <- <-; apply newer_same; reflexivity|]. cbv zeta in H. match type of H with (if ?b then _ else _) = _ => destruct b; [discriminate|] end.
    destruct (SetSecretKey _ _) as [[c2 o1]| |] eqn:K; cbn [bind] in H; try discriminate. destruct (negb _); [injection H as <- <-; apply newer_same; reflexivity|].
    destruct (AddObject _ _ _ _ _ _) as [[[c h] s2]| |] eqn:A; cbn [bind] in H; try discriminate. injection H as <- <-. rewrite <- (CreateObject_mark _ _ _ _ _ C). apply CreateObject_id in C as (_ & <- & _).
    assert (K' : o_uid ob = o_uid o1 /\ mark ob = mark o1) by (apply SetSecretKey_frame in K as (dd & ->); auto). destruct K' as [-> ->]. apply (newer_bump _ s 1). eapply addo_new; [| |exact A]; [exact (inv_uniq s V)|exact I]. }
  destruct m; [| |injection H as <- <-; apply newer_same; reflexivity]; match type of H with bind ?A _ = _ => destruct A end; cbn [bind] in H; try discriminate; exact (Q H).
Qed.
Lemma GenKeyPair_new h rnd s x m tp tq g s' o : inv s -> sess_get s (ss_h x) = Some x -> GenKeyPair w rnd s x m tp tq g = Ok (s', o) ->
  newer (bears (s_uid s) (mark_of (OGenerateKeyPair h m tp tq g))) s s'.
Proof.
  intros V GS H. pose proof (proj1 (sess_get_in _ _ _ GS)) as I. unfold GenKeyPair in H. destruct (match m with KP_RSA => _ | _ => _ end) as [ty|]; [|unfold rv_ in H; injection H as <- <-; apply newer_same; reflexivity].
  destruct (NewObject _ _ (s_uid s) _ _ _) as [[rv [pub|]]| |] eqn:N1; cbn [bind] in H; try discriminate; [|unfold rv_ in H; injection H as <- <-; apply newer_same; reflexivity].
  destruct (NewObject _ _ (S (s_uid s)) _ _ _) as [[rv2 [priv|]]| |] eqn:N2; cbn [bind] in H; try discriminate; [|unfold rv_ in H; injection H as <- <-; apply newer_same; reflexivity].
  match type of H with bind ?A _ = _ => destruct A as [[[p q]|]| |] eqn:G end; cbn [bind] in H; try discriminate; [|unfold rv_ in H; injection H as <- <-; apply newer_same; reflexivity].
  destruct (AddObject _ _ (bump s 2) _ _ _) as [[[c h1] s1]| |] eqn:A1; cbn [bind] in H; try discriminate. destruct (addo_sess _ _ (bump s 2) _ _ _ _ _ _ (inv_uniq s V) GS A1) as (V1 & _).
  pose proof (addo_new _ (bump s 2) _ _ _ _ _ _ (inv_uniq s V) I A1) as L1. apply newer_bump in L1.
  pose proof (gen_uid _ _ _ _ _ _ G) as [Up Uq]. destruct (pair_mark h m tp tq g _ _ _ _ _ G) as [Mp Mq].
  apply NewObject_id in N1 as (_ & N1 & _). apply NewObject_id in N2 as (_ & N2 & _). rewrite Mp, Up, N1 in L1.
  destruct (negb _); [unfold rv_ in H; injection H as <- <-; exact L1|].
  destruct (sess_get s1 (ss_h x)) as [x2|] eqn:G2; [|unfold rv_ in H; injection H as <- <-; exact L1].
  destruct (AddObject _ _ s1 _ _ _) as [[[c4 h4] s3]| |] eqn:A2; cbn [bind] in H; try discriminate. destruct (c4 =? CKR_OK)%Z; [|discriminate]. injection H as <- <-.
  apply sess_get_in in G2 as (X2 & _). pose proof (addo_new _ s1 _ _ _ _ _ _ V1 X2 A2) as L2. rewrite Mq, Uq, N2 in L2.
  eapply newer_trans; [exact L1|intros a b B E; eapply bears_face; eauto|]. intros y Y. destruct (L2 y Y) as [Z|[Z1 Z2]]; [auto|right; split; [lia|exact Z2]].
Qed.

(** A step: every object was there, or is new, marked by the call; or was loaded. *)
Theorem step_new rnd s c s' out : inv s -> step w rnd s c = Ok (s', out) ->
  forall o, In o (live s') -> (exists p, In p (live s) /\ o_uid p = o_uid o) \/ ((s_uid s <= o_uid o)%nat /\ (loading s c = false -> creates c = true /\ mark o = mark_of c)).
Proof.
  intros I H o P. destruct (objop c) as [h|] eqn:O.
  2:{ destruct (loading s c) eqn:LD; [right; split; [eapply load_new; eauto|discriminate]|]. left. destruct (other_under _ _ _ _ _ _ I O LD H o P) as (p & J & E). exists p. split; [exact J|]. symmetry. apply face_uid; exact E. }
  assert (LD : loading s c = false) by (destruct c; try reflexivity; discriminate O).
  assert (N : creates c = true -> newer (bears (s_uid s) (mark_of c)) s s' -> (exists p, In p (live s) /\ o_uid p = o_uid o) \/ ((s_uid s <= o_uid o)%nat /\ (loading s c = false -> creates c = true /\ mark o = mark_of c))).
  { intros Cr N. destruct (N o P) as [(p & J & E)|[A B]]; [left; exists p; split; [exact J|symmetry; apply face_uid; exact E]|auto]. }
  assert (D : (exists h ho t, c = OSetAttributeValue h ho t) \/ forall h ho t, c <> OSetAttributeValue h ho t) by (destruct c; try (right; discriminate); left; eauto).
  destruct D as [(h0 & ho & t & ->)|NS].
  - left. cbn [step] in H. unfold with_sess, need_lib in H. destruct (0 <? _)%Z; [|injection H as <- _; eauto].
    destruct (sess_get s h0) as [x|] eqn:G; [|injection H as <- _; eauto].
    unfold need_rw in H. destruct (is_rw x) eqn:R; [|injection H as <- _; eauto].
    unfold with_object in H. destruct (find_obj s x ho) as [p|] eqn:F; [|injection H as <- _; eauto].
    destruct (SetAttributeValue _ _ p t) as [[rv p']| |] eqn:S; cbn [bind] in H; try discriminate. injection H as <- _.
    destruct (SetAttributeValue_id w _ _ _ _ _ S) as [(Ei & _) _].
    apply put_obj_in in P as [->|[Q _]]; [|eauto]. exists p. split; [|congruence].
    unfold find_obj in F. apply find_some in F as [F _]. unfold live. apply sess_get_in in G as (X & _). apply in_or_app. destruct (on_token ho); [left; exact F|right; eapply all_objs_in; eauto].
  - destruct (creates c) eqn:Cr.
    2:{ left. destruct (prims_under w c h s s' (NS h) I (objop_prims _ _ _ _ _ _ _ I O H)) as [_ B]. destruct (B Cr o P) as (p & J & E). exists p. split; [exact J|symmetry; apply face_uid; exact E]. }
    apply (N eq_refl). clear N.
    destruct c; try discriminate Cr; cbn [step mark_of] in *; unfold with_sess, need_lib in H; (destruct (0 <? _)%Z; [|injection H as <- _; apply newer_same; reflexivity]);
      (destruct (sess_get s _) as [x|] eqn:G; [|injection H as <- _; apply newer_same; reflexivity]); pose proof (proj1 (sess_get_in _ _ _ G)) as X.
    + unfold need_rw in H. destruct (is_rw x); [|injection H as <- _; apply newer_same; reflexivity]. eapply Create_new; eauto.
    + unfold need_rw in H. destruct (is_rw x); [|injection H as <- _; apply newer_same; reflexivity]. unfold with_object in H. destruct (find_obj s x ho); [|injection H as <- _; apply newer_same; reflexivity]. eapply Copy_new; eauto.
    + destruct aes; [|injection H as <- _; apply newer_same; reflexivity]. eapply GenKey_new; eauto.
    + pose proof (proj1 (proj2 (sess_get_in _ _ _ G))) as Hx. subst. eapply (GenKeyPair_new 0%Z); eauto.
    + unfold need_rw in H. destruct (is_rw x); [|injection H as <- _; apply newer_same; reflexivity]. destruct (zlen wrapped =? 0)%Z; [injection H as <- _; apply newer_same; reflexivity|].
      unfold with_object in H. destruct (find_obj s x hu); [|injection H as <- _; apply newer_same; reflexivity]. eapply Unwrap_new; eauto.
    + unfold with_object in H. destruct (find_obj s x hb); [|injection H as <- _; apply newer_same; reflexivity]. eapply Derive_new; eauto.
Qed.
End W.
