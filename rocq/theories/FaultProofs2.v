(** The calls with faults compared with the calls without. *)
From Verif Require Import Base Codec Ops Object Store Sys SysProofs Fault FaultProofs.
From Coq Require Import List Lia ZArith.
Import ListNotations.
Open Scope nat_scope.
Open Scope list_scope.

Ltac rfl := lazymatch goal with |- ?a = ?a => reflexivity | _ => idtac end.
Section W.
Variable w : world.
Variable ft : faults.
Notation se := (w_se w).

(** ** No faults *)
Section Calm.
Hypothesis calm_w : forall n, f_write ft n = Good.
Lemma FSetSOPin_calm rnd s p : FSetSOPin w ft rnd s p = SetSOPin w rnd s p.
Proof. apply fstore_calm, calm_w. Qed.
Lemma FSetUserPin_calm rnd s p : FSetUserPin w ft rnd s p = SetUserPin w rnd s p.
Proof. apply fstore_calm, calm_w. Qed.
Lemma FAddToSession_calm rnd s x b o : FAddToSession w ft rnd s x b o = AddToSession w rnd s x b o.
Proof.
  unfold FAddToSession, AddToSession. destruct (b =? 0)%N; [reflexivity|].
  destruct (_ <=? _)%Z; [reflexivity|]. destruct (Encode _ _ _ _) as [[c o2]| |]; cbn [bind]; try reflexivity.
  destruct (negb _); [reflexivity|]. rewrite fstore_calm by exact calm_w. reflexivity.
Qed.
Lemma FAddObject_calm rnd s x t o : FAddObject w ft rnd s x t o = AddObject w rnd s x t o.
Proof. unfold FAddObject, AddObject. destruct (tmpl_token t); [|reflexivity]. rewrite FAddToSession_calm. reflexivity. Qed.
Lemma FRemoveObject_calm rnd s x h o : FRemoveObject w ft rnd s x h o = RemoveObject w rnd s x h o.
Proof.
  unfold FRemoveObject, RemoveObject. destruct (obj_free o); cbn [bind]; try reflexivity.
  destruct (on_token h); [|reflexivity]. destruct (o_onTok o); [|reflexivity].
  unfold FUnstore, no_kind, Unstore. rewrite calm_w. cbn [perform1]. destruct (key_kind o) as [k|]; [|reflexivity].
  rewrite calm_w. cbn [perform1 Z.eqb negb andb bind].
  rewrite fstore_calm by exact calm_w. reflexivity.
Qed.
End Calm.
Lemma fstep_calm rnd s c : calm ft -> fstep w ft rnd s c = step w rnd s c.
Proof.
  intros [C R]. destruct c; cbn [fstep step]; rfl;
  unfold with_sess, with_slot, need_lib, need_rw, with_object;
  repeat match goal with |- (match ?x with _ => _ end) = (match ?x with _ => _ end) => destruct x; rfl end.
  - unfold FInitialize, Initialize. rewrite (Token_Load_ext _ (s_fs s) _ _ (readable_all _ _ R)). reflexivity.
  - unfold FFinalize, Finalize. rewrite fstore_calm by exact C. reflexivity.
  - unfold FInitToken, InitToken, FTokenReset, TokenReset. rewrite FSetSOPin_calm by exact C. reflexivity.
  - unfold FInitPIN, InitPIN. rewrite FSetUserPin_calm by exact C. reflexivity.
  - unfold FSetPIN, SetPIN. rewrite FSetSOPin_calm, FSetUserPin_calm by exact C. reflexivity.
  - unfold FCreate, Create. destruct (CreateObject _ _ _ _) as [[rv [o|]]| |]; cbn [bind]; rfl.
    rewrite FAddObject_calm by exact C. reflexivity.
  - unfold FCopy, Copy. destruct (CopyObject _ _ _ _ _) as [[[rv t1] [[b o']|]]| |]; cbn [bind]; rfl.
    rewrite FAddToSession_calm by exact C. reflexivity.
  - rewrite FRemoveObject_calm by exact C. reflexivity.
  - unfold FGenKey, GenKey. destruct (NewObject _ _ _ _ _ _) as [[rv [o|]]| |]; cbn [bind]; rfl.
    destruct (as_sym o) as [[l b]| |]; cbn [bind]; rfl. destruct (_ <? _)%Z; [reflexivity|].
    rewrite FAddObject_calm by exact C. reflexivity.
  - unfold FGenKeyPair, GenKeyPair. destruct m; cbv iota beta; rfl;
    (destruct (NewObject _ _ _ _ CKO_PUBLIC_KEY _) as [[rv [pub|]]| |]; cbn [bind]; rfl);
    (destruct (NewObject _ _ _ _ CKO_PRIVATE_KEY _) as [[rv2 [priv|]]| |]; cbn [bind]; rfl);
    (match goal with |- bind ?r _ = _ => destruct r as [[[p q]|]| |]; cbn [bind]; rfl end);
    rewrite FAddObject_calm by exact C; (destruct (AddObject _ _ _ _ _ _) as [[[rv3 h1] s2]| |]; cbn [bind]; rfl);
    (destruct (negb _); [reflexivity|]); (destruct (sess_get _ _); [|reflexivity]);
    rewrite FAddObject_calm by exact C; reflexivity.
  - unfold FUnwrap, Unwrap. destruct (negb (is_cbc_pad _)); [reflexivity|].
    destruct (find_last _ CKA_KEY_TYPE) as [a|]; [|reflexivity]. destruct (tmpl_ulong a); [|reflexivity].
    destruct (negb _); [reflexivity|].
    destruct (find_last _ CKA_CLASS) as [a2|]; [|reflexivity]. destruct (tmpl_ulong a2); [|reflexivity].
    destruct (negb _); [reflexivity|]. destruct (negb _); [reflexivity|]. destruct (negb _); [reflexivity|].
    destruct (run_init _ _ _ _ _) as [[x1 o1]| |]; cbn [bind]; rfl. destruct (negb _); [reflexivity|].
    destruct (run_cont _ _ _ _) as [[x2 o2]| |]; cbn [bind]; rfl. destruct (negb _); [reflexivity|].
    destruct (NewObject _ _ _ _ _ _) as [[rv [pub|]]| |]; cbn [bind]; rfl.
    destruct (w_p8_dec _ _) as [k r]. destruct (negb _); [reflexivity|]. rewrite FAddObject_calm by exact C. reflexivity.
  - unfold FDerive, Derive. destruct m; rfl;
    match goal with |- context [bind ?x _] => destruct x; cbn [bind]; rfl end;
    (match goal with |- context [match ?sec with Some _ => _ | None => _ end] => destruct sec as [sc|]; [|reflexivity] end);
    (destruct (CreateObject _ _ _ _) as [[rv [o'|]]| |]; cbn [bind]; rfl);
    (destruct (GetAttr _ _ _ _) as [[[k ln] dd]| |]; cbn [bind]; rfl);
    (destruct (negb _); [reflexivity|]); (match goal with |- context [if ?b then Undef _ else _] => destruct b; [reflexivity|] end);
    (destruct (SetSecretKey _ _) as [[c2 o1]| |]; cbn [bind]; rfl);
    (destruct (negb _); [reflexivity|]); rewrite FAddObject_calm by exact C; reflexivity.
Qed.

(** ** The calls that set a PIN *)
Definition pin_call (c : op) : bool := match c with OInitToken _ _ _ | OInitPIN _ _ | OSetPIN _ _ _ => true | _ => false end.
Ltac fpeel H := repeat match type of H with
  | (match ?x with _ => _ end) = Ok _ => destruct x eqn:?; try discriminate H
  end.
Lemma rv_inv s r s' o : rv_ s r = Ok (s', o) -> s' = s /\ o = OutRv r.
Proof. unfold rv_. injection 1; auto. Qed.
Lemma out_ok_code (c : Z) : out_rv (OutRv (if (c =? 0)%Z then CKR_OK else CKR_FUNCTION_FAILED)) = CKR_OK -> c = 0%Z.
Proof. cbn. destruct (Z.eqb_spec c 0); [auto|discriminate]. Qed.
Lemma fstep_pin_ok rnd s c s' o : pin_call c = true -> fstep w ft rnd s c = Ok (s', o) -> out_rv o = CKR_OK ->
  exists s1, step w rnd s c = Ok (s1, o) /\ s_tok s' = s_tok s1 /\ (audible ft -> s' = s1).
Proof.
  intros P H K. destruct c; try discriminate P; cbn [fstep step] in *;
  unfold with_sess, with_slot, need_lib in *; fpeel H;
  try (apply rv_inv in H as [-> ->]; discriminate K).
  - unfold FInitToken, InitToken, FTokenReset, TokenReset in *.
    repeat match goal with |- context [if ?b then rv_ _ _ else _] => destruct b end;
    try (apply rv_inv in H as [-> ->]; discriminate K).
    destruct (free_all _); cbn [bind] in *; try discriminate H. destruct (zlen label <? 32)%Z; cbn [bind] in *; [discriminate H|].
    destruct (FSetSOPin _ _ _ _ _) as [[c2 s2]| |] eqn:F; cbn [bind] in H; try discriminate H.
    apply rv_inv in H as [-> ->]. apply out_ok_code in K. subst c2. apply fstore_ok in F as (s3 & E & A & B & G).
    unfold SetSOPin. rewrite E. cbn [bind]. exists s3. split; [reflexivity|]. auto.
  - unfold FInitPIN, InitPIN in *.
    repeat match goal with |- context [if ?b then rv_ _ _ else _] => destruct b end;
    try (apply rv_inv in H as [-> ->]; discriminate K).
    destruct (FSetUserPin _ _ _ _ _) as [[c2 s2]| |] eqn:F; cbn [bind] in H; try discriminate H.
    apply rv_inv in H as [-> ->]. apply out_ok_code in K. subst c2. apply fstore_ok in F as (s3 & E & A & B & G).
    unfold SetUserPin. rewrite E. cbn [bind]. exists s3. split; [reflexivity|]. auto.
  - unfold FSetPIN, SetPIN in *. cbv zeta in *.
    repeat match goal with |- context [if ?b then rv_ _ _ else _] => destruct b end;
    try (apply rv_inv in H as [-> ->]; discriminate K).
    match type of H with bind (if ?b then _ else _) _ = _ => destruct b end.
    + destruct (FSetSOPin _ _ _ _ _) as [[c2 s2]| |] eqn:F; cbn [bind] in H; try discriminate H.
      apply rv_inv in H as [-> ->]. apply out_ok_code in K. subst c2. apply fstore_ok in F as (s3 & E & A & B & G).
      unfold SetSOPin. rewrite E. cbn [bind]. exists s3. split; [reflexivity|]. auto.
    + destruct (FSetUserPin _ _ _ _ _) as [[c2 s2]| |] eqn:F; cbn [bind] in H; try discriminate H.
      apply rv_inv in H as [-> ->]. apply out_ok_code in K. subst c2. apply fstore_ok in F as (s3 & E & A & B & G).
      unfold SetUserPin. rewrite E. cbn [bind]. exists s3. split; [reflexivity|]. auto.
Qed.

(** Whatever the faults and whatever is answered, memory is left as without them. *)
Lemma fstore_same rnd s c s' c1 s1 : fstore w ft rnd s = Ok (c, s') -> store w rnd s = Ok (c1, s1) -> same_mem s1 s'.
Proof. intros A B. apply fstore_mem in A. apply store_mem in B. eapply same_mem_trans; [apply same_mem_sym; exact B|exact A]. Qed.
Lemma fstep_pin_mem rnd s c s' o s1 o1 : pin_call c = true -> fstep w ft rnd s c = Ok (s', o) ->
  step w rnd s c = Ok (s1, o1) -> same_mem s1 s'.
Proof.
  intros P H K. destruct c; try discriminate P; cbn [fstep step] in *;
  unfold with_sess, with_slot, need_lib in *; fpeel H;
  try (apply rv_inv in H as [-> ->]; apply rv_inv in K as [-> ->]; apply same_mem_refl).
  - unfold FInitToken, InitToken, FTokenReset, TokenReset in *.
    fpeel H; try (apply rv_inv in H as [-> ->]; apply rv_inv in K as [-> ->]; apply same_mem_refl).
    destruct (free_all _); cbn [bind] in *; try discriminate H. destruct (zlen label <? 32)%Z; cbn [bind] in *; [discriminate H|].
    destruct (FSetSOPin _ _ _ _ _) as [[c2 s2]| |] eqn:F; cbn [bind] in H; try discriminate H.
    destruct (SetSOPin _ _ _ _) as [[c3 s3]| |] eqn:G; cbn [bind] in K; try discriminate K.
    apply rv_inv in H as [-> ->]. apply rv_inv in K as [-> ->]. eapply fstore_same; eassumption.
  - unfold FInitPIN, InitPIN in *.
    fpeel H; try (apply rv_inv in H as [-> ->]; apply rv_inv in K as [-> ->]; apply same_mem_refl).
    destruct (FSetUserPin _ _ _ _ _) as [[c2 s2]| |] eqn:F; cbn [bind] in H; try discriminate H.
    destruct (SetUserPin _ _ _ _) as [[c3 s3]| |] eqn:G; cbn [bind] in K; try discriminate K.
    apply rv_inv in H as [-> ->]. apply rv_inv in K as [-> ->]. eapply fstore_same; eassumption.
  - unfold FSetPIN, SetPIN in *. cbv zeta in *.
    fpeel H; try (apply rv_inv in H as [-> ->]; apply rv_inv in K as [-> ->]; apply same_mem_refl).
    match type of H with bind (if ?b then _ else _) _ = _ => destruct b end.
    + destruct (FSetSOPin _ _ _ _ _) as [[c2 s2]| |] eqn:F; cbn [bind] in H; try discriminate H.
      destruct (SetSOPin _ _ _ _) as [[c3 s3]| |] eqn:G; cbn [bind] in K; try discriminate K.
      apply rv_inv in H as [-> ->]. apply rv_inv in K as [-> ->]. eapply fstore_same; eassumption.
    + destruct (FSetUserPin _ _ _ _ _) as [[c2 s2]| |] eqn:F; cbn [bind] in H; try discriminate H.
      destruct (SetUserPin _ _ _ _) as [[c3 s3]| |] eqn:G; cbn [bind] in K; try discriminate K.
      apply rv_inv in H as [-> ->]. apply rv_inv in K as [-> ->]. eapply fstore_same; eassumption.
Qed.

(** ** The calls that do not look at the answer of storing *)
Lemma next_handle_core a b n : map core_obj a = map core_obj b -> next_handle a n = next_handle b n.
Proof.
  destruct a as [|x a], b as [|y b]; intros H; try discriminate; [reflexivity|].
  apply (f_equal (fun l => match l with o :: _ => o_handle o | [] => 0%Z end)) in H. cbn in *. rewrite H. reflexivity.
Qed.
Lemma zlen_map_eq (A B : Type) (f : A -> B) a b : map f a = map f b -> zlen a = zlen b.
Proof. intros H. unfold zlen. rewrite <- (map_length f a), <- (map_length f b), H. reflexivity. Qed.
Lemma tok0_key a b : tok0 a = tok0 b -> t_key a = t_key b.
Proof. intros H. apply (f_equal t_key) in H. exact H. Qed.
Lemma add_same rnd s s0 x b o c h s1 c' h' s' : same_mem s0 s ->
  AddToSession w rnd s0 x b o = Ok (c, h, s1) -> FAddToSession w ft rnd s x b o = Ok (c', h', s') ->
  c' = c /\ h' = h /\ same_mem s1 s'.
Proof.
  intros (M1 & M2 & M3 & M4 & M5). unfold AddToSession, FAddToSession. intros H H'. destruct (b =? 0)%N.
  - destruct (_ <=? _)%Z; injection H; injection H'; intros; subst.
    + repeat split; auto.
    + split; [reflexivity|]. split; [reflexivity|]. unfold put_sess, same_mem. cbn. rewrite M2. repeat split; auto.
  - rewrite <- (zlen_map_eq _ _ _ _ _ M5) in H. destruct (_ <=? _)%Z.
    + injection H; injection H'; intros; subst. repeat split; auto.
    + rewrite <- (tok0_key _ _ M4) in H. destruct (Encode _ _ _ _) as [[k o2]| |]; cbn [bind] in *; try discriminate.
      destruct (negb _); [injection H; injection H'; intros; subst; repeat split; auto|].
      rewrite <- (next_handle_core _ _ _ M5) in H.
      destruct (store _ _ _) as [[c1 s2]| |] eqn:S; cbn [bind] in H; try discriminate.
      destruct (fstore _ _ _ _) as [[c2 s3]| |] eqn:F; cbn [bind] in H'; try discriminate.
      injection H; injection H'; intros; subst. split; [reflexivity|]. split; [reflexivity|].
      apply store_mem in S. apply fstore_mem in F.
      destruct S as (S1 & S2 & S3 & S4 & S5), F as (F1 & F2 & F3 & F4 & F5).
      unfold same_mem. rewrite S1, S2, S3, S4, S5, F1, F2, F3, F4, F5. cbn in *. rewrite M5. repeat split; auto.
Qed.
Lemma AddObject_same rnd s s0 x t o c h s1 c' h' s' : same_mem s0 s ->
  AddObject w rnd s0 x t o = Ok (c, h, s1) -> FAddObject w ft rnd s x t o = Ok (c', h', s') ->
  c' = c /\ h' = h /\ same_mem s1 s'.
Proof.
  intros M. unfold AddObject, FAddObject. destruct (tmpl_token t) as [b|].
  - destruct (AddToSession _ _ _ _ _ _) as [[[a1 a2] a3]| |] eqn:A; cbn [bind]; try discriminate.
    destruct (FAddToSession _ _ _ _ _ _ _) as [[[b1 b2] b3]| |] eqn:B; cbn [bind]; try discriminate.
    destruct (add_same _ _ _ _ _ _ _ _ _ _ _ _ M A B) as (-> & -> & M').
    intros H H'. injection H; injection H'; intros; subst. auto.
  - intros H H'. injection H; injection H'; intros; subst. auto.
Qed.
Lemma FUnstore_mem s id o s' : FUnstore ft s id o = Ok s' -> same_mem s s'.
Proof.
  unfold FUnstore. destruct (perform1 _ _ _) as [c1 d1]. destruct (key_kind o).
  - destruct (perform1 _ _ _) as [c2 d2]. destruct (andb _ _); [discriminate|]. intros [= <-]. repeat split.
  - destruct (c1 =? 0)%Z; [discriminate|]. intros [= <-]. repeat split.
Qed.
Lemma Remove_same rnd s x h o s1 s' :
  RemoveObject w rnd s x h o = Ok s1 -> FRemoveObject w ft rnd s x h o = Ok s' -> same_mem s1 s'.
Proof.
  unfold RemoveObject, FRemoveObject. destruct (obj_free o); cbn [bind]; try discriminate.
  destruct (on_token h).
  - destruct (o_onTok o); [|discriminate]. destruct (no_kind o); [discriminate|].
    destruct (store _ _ _) as [[c1 s2]| |] eqn:S; cbn [bind]; try discriminate.
    destruct (FUnstore _ _ _ _) as [s3| |] eqn:U; cbn [bind]; try discriminate.
    destruct (fstore _ _ _ _) as [[c2 s4]| |] eqn:F; cbn [bind]; try discriminate.
    intros [= <-] [= <-]. apply store_mem in S. apply fstore_mem in F. apply FUnstore_mem in U.
    eapply same_mem_trans; [|exact F]. eapply same_mem_trans; [|exact U].
    eapply same_mem_trans; [apply same_mem_sym; exact S|]. repeat split.
  - intros [= <-] [= <-]. apply same_mem_refl.
Qed.
End W.
