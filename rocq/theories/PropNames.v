(** C97: every stored item has a file of its own. *)
From Verif Require Import Base Codec Ops Object Store StoreSpec StoreProofs Sys SysProofs SysProofs2 SysProofs3 SysProofs4 WfProofs CrashProofs DiskProofs ObjFrame ObjProofs QuotaProofs Info Names ToyEnv ToySys PropObject PropStore PropStore2 PropStore3 PropObj PropImport.
From Coq Require Import List.
Import ListNotations.
Open Scope nat_scope.
Open Scope list_scope.

(** ** Specification *)
(** An item that is stored: kind, slot, object number; the token has one file per slot. *)
Definition item := (fkind * Z * Z)%type.
Definition is_item (i : item) : Prop := let '(k, a, b) := i in (0 <= a < 2 ^ 64)%Z /\ (0 <= b < 2 ^ 64)%Z /\ (k = F_TOKEN -> b = 0%Z).
Definition where_ (path : list N) (i : item) : option (list N) := let '(k, a, b) := i in file_name path k a b.
(** Different items are in different files. *)
Definition C97_claim : Prop := forall path i j n, is_item i -> is_item j -> where_ path i = Some n -> where_ path j = Some n -> i = j.
(** What the next process finds is what was stored last: the real files agree with
    the model's file system. *)
Definition real_file (f : fname) : Prop := (Z.of_nat (snd f) < 2 ^ 64)%Z /\ (fst f = F_TOKEN -> snd f = 0).
Definition C97_disk_claim (w : world) : Prop := forall path d s f, laws (w_se w) -> where_ path (F_TOKEN, 1%Z, 0%Z) <> None -> view path d (F_TOKEN, 0) = None -> reach w (sys0 (view path d)) s -> real_file f ->
  view path (napply path d (s_log s)) f = s_fs s f.

(** ** Names *)
Lemma hexn_len n : forall x, length (hexn n x) = n.
Proof. induction n as [|n IH]; intros x; [reflexivity|]. cbn [hexn]. rewrite app_length, IH. cbn. lia. Qed.
Lemma hexdig_inj a b : (a < 16)%N -> (b < 16)%N -> hexdig a = hexdig b -> a = b.
Proof. unfold hexdig. intros A B. destruct (N.ltb_spec a 10), (N.ltb_spec b 10); lia. Qed.
Lemma hexn_inj n : forall x y, (0 <= x < 16 ^ Z.of_nat n)%Z -> (0 <= y < 16 ^ Z.of_nat n)%Z -> hexn n x = hexn n y -> x = y.
Proof.
  induction n as [|n IH]; intros x y X Y E; [cbn in X, Y; lia|]. cbn [hexn] in E. apply app_inj_tail in E as [E1 E2].
  rewrite Nat2Z.inj_succ, Z.pow_succ_r in X, Y by lia.
  assert (D : (x / 16 = y / 16)%Z). { apply IH; [| |exact E1]; (split; [apply Z.div_pos; lia|apply Z.div_lt_upper_bound; lia]). }
  pose proof (Z.mod_pos_bound x 16 ltac:(lia)). pose proof (Z.mod_pos_bound y 16 ltac:(lia)).
  apply hexdig_inj in E2; lia.
Qed.
Lemma hex16_inj x y : (0 <= x < 2 ^ 64)%Z -> (0 <= y < 2 ^ 64)%Z -> hex16 x = hex16 y -> x = y.
Proof. intros X Y. apply hexn_inj; assumption. Qed.
Lemma prefix_inj k l a b : prefix k ++ a = prefix l ++ b -> k = l /\ a = b.
Proof. destruct k, l; cbn; intros E; try (split; [reflexivity|]; repeat injection E as E; exact E); discriminate E. Qed.
Lemma app_len_inj {A} (a b c d : list A) : length a = length c -> a ++ b = c ++ d -> a = c /\ b = d.
Proof. revert c. induction a as [|x a IH]; destruct c as [|y c]; cbn; intros L E; try discriminate; [auto|]. injection E as <- E. destruct (IH c ltac:(lia) E) as [<- <-]. auto. Qed.
Lemma full_inj path i j : is_item i -> is_item j -> full_name path (fst (fst i)) (snd (fst i)) (snd i) = full_name path (fst (fst j)) (snd (fst j)) (snd j) -> i = j.
Proof.
  destruct i as [[k a] b], j as [[l c] d]. cbn [fst snd]. intros (A & B & T) (C & D & U) E. unfold full_name in E. apply app_inv_head in E. apply app_inv_head in E.
  apply prefix_inj in E as [<- E]. unfold suffix in E.
  assert (G : hex16 a ++ str "_" ++ hex16 b = hex16 c ++ str "_" ++ hex16 d -> (k, a, b) = (k, c, d)).
  { intros E'. apply app_len_inj in E' as [E1 E2]; [|unfold hex16; rewrite !hexn_len; reflexivity]. apply app_inv_head in E2. apply hex16_inj in E1; [|assumption..]. apply hex16_inj in E2; [|assumption..]. subst. reflexivity. }
  destruct k; try (exact (G E)). rewrite (T eq_refl), (U eq_refl). apply hex16_inj in E; [|assumption..]. subst. reflexivity.
Qed.
Lemma full_len path k a b : length (full_name path k a b) <= length path + 51.
Proof.
  unfold full_name, suffix, hex16. rewrite app_length, app_length. destruct k; rewrite !app_length, ?hexn_len; cbn; lia.
Qed.

(** For directories of at most 68 characters no name is cut and the items have
    different files. *)
Theorem C97_partial path i j n : length path <= 68 -> is_item i -> is_item j -> where_ path i = Some n -> where_ path j = Some n -> i = j /\ n = full_name path (fst (fst i)) (snd (fst i)) (snd i).
Proof.
  intros L I J A B. pose proof (full_inj path i j I J) as F. destruct i as [[k a] b], j as [[l c] d]. cbn [where_ fst snd] in *. unfold file_name in A, B.
  change (NAME_SIZE - 47) with 73 in A, B. rewrite (proj2 (Nat.ltb_ge 73 (length path)) ltac:(lia)) in A, B.
  change (NAME_SIZE - 1) with 119 in A, B. pose proof (full_len path k a b) as K1. pose proof (full_len path l c d) as K2.
  rewrite firstn_all2 in A, B by lia. injection A as A. injection B as B. split; [apply F; congruence|congruence].
Qed.
Print Assumptions C97_partial.

(** For 69 to 73 characters the last digit of the number of an RSA or EC private key
    is cut off (at 73 characters also that of a secret key): up to sixteen keys have
    one file. *)
Lemma firstn_app_le {A} n (a b : list A) : n <= length a -> firstn n (a ++ b) = firstn n a.
Proof. intros L. rewrite firstn_app. replace (n - length a) with 0 by lia. cbn. apply app_nil_r. Qed.
Lemma cut path k a i j : length path <= 73 -> 119 <= length path + length (prefix k) + 33 -> k <> F_TOKEN -> (i / 16 = j / 16)%Z -> file_name path k a i = file_name path k a j.
Proof.
  intros L M K E. unfold file_name. destruct (_ <? _); [reflexivity|]. f_equal. change (NAME_SIZE - 1) with 119. unfold full_name, suffix.
  assert (S : forall x, path ++ str "/" ++ prefix k ++ (match k with F_TOKEN => hex16 a | _ => hex16 a ++ str "_" ++ hex16 x end) =
    (path ++ str "/" ++ prefix k ++ hex16 a ++ str "_" ++ hexn 15 (x / 16)) ++ [hexdig (Z.to_N (x mod 16))]).
  { intros x. change (hex16 x) with (hexn 15 (x / 16) ++ [hexdig (Z.to_N (x mod 16))]). destruct k; try (rewrite !app_assoc; reflexivity). contradiction. }
  rewrite (S i), (S j), E. rewrite (firstn_app_le 119 _ [hexdig (Z.to_N (i mod 16))]), (firstn_app_le 119 _ [hexdig (Z.to_N (j mod 16))]); [reflexivity| |];
  rewrite !app_length; unfold hex16; rewrite !hexn_len; change (length (str "/")) with 1; change (length (str "_")) with 1; lia.
Qed.
Theorem C97_shared path k a i j : 69 <= length path <= 73 -> k = F_RSA_PRIV \/ k = F_ECC_PRIV \/ (k = F_SYMMKEY /\ length path = 73) -> (i / 16 = j / 16)%Z ->
  exists n, file_name path k a i = Some n /\ file_name path k a j = Some n.
Proof.
  intros L K E. assert (C : file_name path k a i = file_name path k a j).
  { apply cut; [lia| | |exact E]; destruct K as [->|[->|[-> K]]]; try discriminate; cbn; lia. }
  rewrite <- C. unfold file_name. change (NAME_SIZE - 47) with 73. rewrite (proj2 (Nat.ltb_ge 73 (length path)) ltac:(lia)). eauto.
Qed.
Print Assumptions C97_shared.
Theorem C97_refuted : ~ C97_claim.
Proof.
  intros C. destruct (C97_shared (repeat 97%N 69) F_RSA_PRIV 1 0 1 ltac:(rewrite repeat_length; lia) ltac:(auto) eq_refl) as (n & A & B).
  assert (X : (F_RSA_PRIV, 1%Z, 0%Z) = (F_RSA_PRIV, 1%Z, 1%Z)); [|discriminate X].
  apply (C (repeat 97%N 69) _ _ n); [repeat split; try lia; discriminate..|exact A|exact B].
Qed.
Print Assumptions C97_refuted.

(** ** The files *)
Definition small (w : wop) : Prop := real_file (wname w).
Lemma small_id w : snd (wname w) < 64 -> (fst (wname w) = F_TOKEN -> snd (wname w) = 0) -> small w.
Proof. intros L T. split; [|exact T]. assert ((Z.of_nat (snd (wname w)) < 64)%Z) by lia. assert ((64 < 2 ^ 64)%Z) by (vm_compute; reflexivity). lia. Qed.
Definition logs (s s' : sys) : Prop := exists ws, s_log s' = s_log s ++ ws /\ Forall small ws.
Lemma logs_none s s' : s_log s' = s_log s -> logs s s'.
Proof. intros E. exists []. rewrite app_nil_r. auto. Qed.
Lemma logs_trans a b c : logs a b -> logs b c -> logs a c.
Proof. intros (x & A & F) (y & B & G). exists (x ++ y). rewrite B, A, app_assoc. split; [reflexivity|]. apply Forall_app. auto. Qed.

Section W.
Variable w : world.
Hypothesis hash32 : forall p s, length (se_hash (w_se w) p s) = 32%nat.
Lemma store_logs rnd s c s' : few_tok (s_tok s) -> store w rnd s = Ok (c, s') -> logs s s'.
Proof.
  unfold store. intros F H. destruct (Token_Store _ _ _) as [[[c1 t] ws]| |] eqn:T; cbn [bind] in H; try discriminate. injection H as _ <-.
  apply Token_Store_ops in T as (h & rest & _ & -> & K). exists (WOpen (F_TOKEN, 0) :: WWrite (F_TOKEN, 0) h :: rest). split; [reflexivity|].
  constructor; [apply small_id; cbn; [lia|auto]|]. constructor; [apply small_id; cbn; [lia|auto]|]. eapply Forall_impl; [|exact K]. intros x [A B]. unfold few_tok, zlen, TOK_OBJ_MAX in F. apply small_id; [lia|contradiction].
Qed.
Lemma behind_lt o l : In o l -> behind (o_uid o) l < length l.
Proof.
  induction l as [|x l IH]; [intros []|]. intros [->|I]; cbn [behind length].
  - destruct (o_uid o =? o_uid o) eqn:E; [lia|]. rewrite Nat.eqb_refl in E. discriminate.
  - destruct (o_uid x =? o_uid o); [lia|]. specialize (IH I). lia.
Qed.
Lemma prim_logs cl h s s' : few s -> prim w cl h s s' -> logs s s'.
Proof.
  intros [F _] P. destruct P as [s x x' X U Hx Hx' Us Ob|s n|s x rnd c s' X R Hx St|s x o X R Hx Q Ul Uf Ho Ot M|s x b o X R Hx Q Ul Uf Nb Ho Ot M|s x o X R Hx Io|s x o X R Hx Io Ot|s x o o' X R Hx Io Sid M];
  try (apply logs_none; reflexivity).
  - eapply store_logs; eauto.
  - exists (Unstore (behind (o_uid o) (t_objs (s_tok s))) o). split; [reflexivity|]. apply behind_lt in Io. unfold few_tok, zlen, TOK_OBJ_MAX in F. unfold Unstore.
    constructor; [apply small_id; cbn; [lia|discriminate]|]. unfold key_kind. repeat match goal with |- context[if ?b then _ else _] => destruct b end; repeat constructor; try (apply small_id; cbn; [lia|discriminate]); cbn; try discriminate; assert ((64 < 2 ^ 64)%Z) by (vm_compute; reflexivity); lia.
Qed.
Lemma prims_logs cl h s s' : inv s -> ginv (s_tok s) -> few s -> file_few (s_fs s) -> prims w cl h s s' -> logs s s'.
Proof.
  intros I G F D P. induction P as [s|s s1 s2 P Ps IH]; [apply logs_none; reflexivity|]. eapply logs_trans; [eapply prim_logs; eauto|].
  destruct (prim_few w _ _ _ _ I G F D P) as [F1 D1]. apply IH; auto; [exact (prim_inv _ _ _ _ _ P I)|exact (prim_ginv _ _ _ _ _ I G P)].
Qed.
Lemma step_logs rnd s c s' o : inv s -> ginv (s_tok s) -> few s -> file_few (s_fs s) -> step w rnd s c = Ok (s', o) -> logs s s'.
Proof.
  intros I G F D H. destruct (objop c) as [h|] eqn:O.
  { eapply prims_logs; eauto. eapply objop_prims; eauto. }
  assert (N : logs s s) by (apply logs_none; reflexivity).
  destruct c; try discriminate O; cbn [step] in H; unfold with_slot, with_sess, need_lib in H.
  - unfold Initialize in H. destruct (_ =? 0)%Z; [|injection H as <- _; apply logs_none; reflexivity].
    destruct (Token_Load _ _ _) as [t| |] eqn:L; cbn [bind] in H; try discriminate. injection H as <- _. apply logs_none; reflexivity.
  - unfold Finalize in H. destruct (_ =? 0)%Z; [|injection H as <- _; apply logs_none; reflexivity].
    destruct (store w rnd s) as [[c1 s1]| |] eqn:St; cbn [bind] in H; try discriminate.
    destruct (final_all _); cbn [bind] in H; try discriminate. destruct (free_all _); cbn [bind] in H; try discriminate. injection H as <- _.
    destruct (store_logs _ _ _ _ (proj1 F) St) as (ws & A & B). exists ws. auto.
  - injection H as <- _. apply logs_none; reflexivity.
  - destruct (0 <? _)%Z; [|sinv; apply N]. destruct (slot_ok slot); [|sinv; apply N]. unfold InitToken in H.
    repeat match type of H with (if ?b then rv_ _ _ else _) = _ => destruct b; [sinv; apply N|] end.
    destruct (TokenReset _ _ _ _ _) as [[c s1]| |] eqn:T; cbn [bind] in H; try discriminate. unfold rv_ in H. injection H as <- _.
    unfold TokenReset in T. destruct (free_all _); cbn [bind] in T; try discriminate. destruct (zlen label <? 32)%Z eqn:LL; [discriminate|].
    unfold SetSOPin in T. apply store_logs in T; [destruct T as (ws & A & B); exists ws; auto|]. unfold few_tok, zlen, TOK_OBJ_MAX. cbn. lia.
  - destruct (0 <? _)%Z; [|sinv; apply N]. destruct (sess_get s h); [|sinv; apply N]. unfold InitPIN in H.
    repeat match type of H with (if ?b then rv_ _ _ else _) = _ => destruct b; [sinv; apply N|] end.
    destruct (SetUserPin _ _ _ _) as [[c s1]| |] eqn:T; cbn [bind] in H; try discriminate. unfold rv_ in H. injection H as <- _.
    unfold SetUserPin in T. apply store_logs in T; [exact T|]. apply F.
  - destruct (0 <? _)%Z; [|sinv; apply N]. destruct (sess_get s h); [|sinv; apply N]. unfold SetPIN in H. cbv zeta in H.
    repeat match type of H with (if ?b then rv_ _ _ else _) = _ => destruct b; [sinv; apply N|] end.
    match type of H with bind ?r _ = _ => destruct r as [[c s1]| |] eqn:T end; cbn [bind] in H; try discriminate.
    unfold rv_ in H. injection H as <- _. destruct (_ =? _)%Z; [unfold SetSOPin in T|unfold SetUserPin in T]; apply store_logs in T; try exact T; apply F.
  - destruct (0 <? s_count s)%Z eqn:Cn; [|sinv; apply N]. destruct (slot_ok slot); [|sinv; apply N]. 
    apply OpenSession_ok in H as [[-> _] | (l & x & P)]; [apply N| |exact I|lia]. cbv zeta in P. destruct P as (-> & _). apply logs_none; reflexivity.
  - destruct (0 <? _)%Z; [|sinv; apply N]. destruct (sess_get s h) as [x|]; [|sinv; apply N]. unfold CloseSession in H.
    destruct (close_sess _ _) as [l| |]; cbn [bind] in H; try discriminate. destruct (existsb in_use l); [sinv; apply logs_none; reflexivity|].
    destruct (Logout _ _) as [t| |] eqn:L; cbn [bind] in H; try discriminate. unfold rv_ in H. injection H as <- _. apply logs_none; reflexivity.
  - destruct (0 <? _)%Z; [|sinv; apply N]. destruct (slot_ok slot); [|sinv; apply N]. destruct (close_all _); cbn [bind] in H; try discriminate.
    unfold rv_ in H. injection H as <- _. apply logs_none; reflexivity.
  - destruct (0 <? _)%Z; [|sinv; apply N]. destruct (sess_get s h) as [x|]; [|sinv; apply N]. unfold Login in H. destruct (negb _); [sinv; apply N|].
    destruct (ut =? CKU_SO)%Z; [|destruct (ut =? CKU_USER)%Z; [|destruct (ut =? CKU_CONTEXT_SPECIFIC)%Z; sinv; apply N]].
    + destruct (SOLogin _ _ _ _ _) as [c t] eqn:L. unfold rv_ in H. injection H as <- _. apply logs_none; reflexivity.
    + destruct (UserLogin _ _ _ _) as [[c t]| |] eqn:L; cbn [bind] in H; try discriminate. unfold rv_ in H. injection H as <- _. apply logs_none; reflexivity.
  - destruct (0 <? _)%Z; [|sinv; apply N]. destruct (sess_get s h) as [x|]; [|sinv; apply N].
    destruct (Logout _ _) as [t| |] eqn:L; cbn [bind] in H; try discriminate. unfold rv_ in H. injection H as <- _. apply logs_none; reflexivity.
  - destruct (0 <? _)%Z; [|sinv; apply N]. destruct (slot_ok slot); sinv; apply N.
Qed.
Lemma reach_logs d s : d (F_TOKEN, 0) = None -> reach w (sys0 d) s -> Forall small (s_log s).
Proof.
  intros D R. induction R as [|s rnd c s' o R IH H]; [constructor|].
  destruct (reach_few w hash32 d s (fresh_few d D) R) as [F Df].
  destruct (step_logs _ _ _ _ _ (reach_inv _ _ _ R) (reach_ginv w hash32 _ _ R) F Df H) as (ws & -> & K). apply Forall_app. auto.
Qed.
End W.

Lemma nm_inj path f g : length path <= 68 -> real_file f -> real_file g -> nm path f = nm path g -> f = g.
Proof.
  intros L [A1 A2] [B1 B2] E. destruct f as [k i], g as [l j]. cbn [fst snd] in *. unfold nm in E. cbn [fst snd] in E.
  assert (X : forall k i, exists n, file_name path k 1 (Z.of_nat i) = Some n). { intros. unfold file_name. change (NAME_SIZE - 47) with 73. rewrite (proj2 (Nat.ltb_ge 73 (length path)) ltac:(lia)). eauto. }
  destruct (X k i) as [n Hn], (X l j) as [m Hm]. rewrite Hn, Hm in E. subst m.
  destruct (C97_partial path (k, 1%Z, Z.of_nat i) (l, 1%Z, Z.of_nat j) n L) as [Q _]; [| |exact Hn|exact Hm|].
  - repeat split; try lia; try (intros K; rewrite (A2 K); reflexivity).
  - repeat split; try lia; try (intros K; rewrite (B2 K); reflexivity).
  - injection Q as -> Q. apply Nat2Z.inj in Q. subst. reflexivity.
Qed.
Lemma napply_view path ws : length path <= 68 -> Forall small ws -> forall d e, (forall f, real_file f -> d (nm path f) = e f) -> forall f, real_file f -> napply path d ws (nm path f) = apply e ws f.
Proof.
  intros L S. induction S as [|x ws S _ IH]; intros d e V f R; [apply V; exact R|]. cbn [napply apply fold_left]. apply IH; [|exact R].
  assert (St : forall g v h, real_file g -> real_file h -> nset d (nm path g) v (nm path h) = fs_set e g v h).
  { intros g v h Rg Rh. unfold nset, fs_set. destruct (list_eq_dec N.eq_dec (nm path h) (nm path g)) as [Q|Q].
    - apply nm_inj in Q; auto. subst h. rewrite (proj2 (fname_eqb_eq g g) eq_refl). reflexivity.
    - destruct (fname_eqb h g) eqn:F; [|apply V; exact Rh]. apply fname_eqb_eq in F. subst h. contradiction. }
  intros g Rg. destruct x as [h|h b]; cbn [napply1 apply1] in *; unfold small in S; cbn [wname] in S; rewrite (V h S) || idtac; apply St; assumption.
Qed.
Theorem C97_disk_partial w path d s f : laws (w_se w) -> length path <= 68 -> view path d (F_TOKEN, 0) = None -> reach w (sys0 (view path d)) s -> real_file f ->
  view path (napply path d (s_log s)) f = s_fs s f.
Proof.
  intros Lw L D R Rf. rewrite (reach_log w _ _ Lw R). unfold view at 1. apply napply_view; [exact L| |reflexivity|exact Rf].
  eapply reach_logs; [exact (l_hash _ Lw)|exact D|exact R].
Qed.
Print Assumptions C97_disk_partial.

(** A directory of 69 characters and two RSA private keys on the token. *)
Definition deep : list N := repeat 97%N 69.
Definition shallow : list N := repeat 97%N 68.
Definition rsa_b : template := [mkA CKA_CLASS (ULONG CKO_PRIVATE_KEY); mkA CKA_KEY_TYPE (ULONG CKK_RSA); mkA CKA_EXTRACTABLE TRUE; mkA CKA_MODULUS (AV [77%N]); mkA CKA_PUBLIC_EXPONENT (AV [7%N]);
  mkA CKA_PRIVATE_EXPONENT (AV [43%N]); mkA CKA_PRIME_1 (AV [11%N]); mkA CKA_PRIME_2 (AV [7%N]); mkA CKA_EXPONENT_1 (AV [3%N]); mkA CKA_EXPONENT_2 (AV [1%N]); mkA CKA_COEFFICIENT (AV [8%N])].
Definition tworsa : list op := setup ++ [OOpenSession 1 RW; userlogin upin; OCreateObject H2 (tokenly rsa_full); OCreateObject H2 (tokenly rsa_b); OFinalize].
Definition nodisk : disk := fun _ => None.
Example tworsa_ok : rvs tworsa = repeat CKR_OK 12.
Proof. vm_compute. reflexivity. Qed.
Theorem C97_disk_refuted : ~ C97_disk_claim tw.
Proof.
  intros C. pose proof (C deep nodisk (after tworsa) (F_RSA_PRIV, 1) toy_laws ltac:(discriminate) eq_refl (after_reach tworsa ltac:(vm_compute; exact Logic.I)) ltac:(split; [vm_compute; reflexivity|discriminate])) as E.
  vm_compute in E. discriminate E.
Qed.
Print Assumptions C97_disk_refuted.
(** What the next process reads from the two keys: login works, and the moduli. *)
Definition reread (path : list N) : option (list out) :=
  match run tw (sys0 (view path (napply path nodisk (s_log (after tworsa))))) (numbered 500 [OInitialize; OOpenSession 1 RW; userlogin upin;
    OGetAttributeValue H2 (2^28 + 1) [mkA CKA_MODULUS (AV (zeros 2))]; OGetAttributeValue H2 (2^28 + 2) [mkA CKA_MODULUS (AV (zeros 2))]]) with Ok (_, os) => Some (skipn 3 os) | _ => None end.
(** With 68 characters both keys are there; with 69 the second has been replaced by
    the first, and nothing reports an error. *)
Example C97_case : reread shallow = Some [OutT CKR_OK [mkA CKA_MODULUS (AV [12; 161]%N)]; OutT CKR_OK [mkA CKA_MODULUS (AV [77%N])]] /\
  reread deep = Some [OutT CKR_OK [mkA CKA_MODULUS (AV [12; 161]%N)]; OutT CKR_OK [mkA CKA_MODULUS (AV [12; 161]%N)]].
Proof. vm_compute. split; reflexivity. Qed.
(** The hypotheses of [C97_disk_partial] are met by this history. *)
Example C97_meets : length shallow <= 68 /\ view shallow nodisk (F_TOKEN, 0) = None /\ reach tw (sys0 (view shallow nodisk)) (after tworsa) /\ real_file (F_RSA_PRIV, 1) /\
  s_fs (after tworsa) (F_RSA_PRIV, 1) <> None /\ s_fs (after tworsa) (F_RSA_PRIV, 0) <> s_fs (after tworsa) (F_RSA_PRIV, 1).
Proof.
  split; [vm_compute; lia|]. split; [reflexivity|]. split; [exact (after_reach tworsa ltac:(vm_compute; exact Logic.I))|]. split; [split; [vm_compute; reflexivity|discriminate]|].
  split; vm_compute; discriminate.
Qed.
