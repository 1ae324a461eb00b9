(** C84, C85: calls made with care have no undefined behaviour, careless ones do. *)
From Verif Require Import Base Codec Ops OpsSpec ToyEnv Object PropObject Store StoreSpec StoreProofs Sys SysProofs SysProofs2 SysProofs3 SysProofs4
  WfProofs KeyProofs ToySys PropStore SafeSpec SafeOps SafeObj SafeStore SafeSys.

(** ** What holds *)
Lemma carefully_reach w s0 s : carefully w s0 s -> reach w s0 s.
Proof. induction 1; [apply reach_0|eapply reach_step; eauto]. Qed.
Lemma honest_step w rnd s c : honest w -> inv s -> safe s -> careful w s c -> good (fun p => safe (fst p)) (step w rnd s c).
Proof.
  intros [L D Oi Oe N1 N2 N3 N4 N5 Nv] I S C. apply step_safe; auto; try (constructor; assumption). apply (l_hash _ L).
Qed.
Lemma carefully_safe w d s : honest w -> carefully w (sys0 d) s -> inv s /\ safe s.
Proof.
  intros Ho C. split; [eapply reach_inv, carefully_reach, C|]. induction C as [|s rnd c s' o C IH Cf E]; [apply fresh_safe|].
  pose proof (honest_step w rnd s c Ho (reach_inv _ _ _ (carefully_reach _ _ _ C)) IH Cf) as G. rewrite E in G. exact G.
Qed.

(** No call has undefined behaviour, whatever the files and the calls before. *)
Definition C85_claim (w : world) : Prop :=
  honest w -> forall d s rnd c u, reach w (sys0 d) s -> step w rnd s c <> Undef u.
(** Proved for callers that keep to [careful] (SafeSpec.v). Missing: everybody else. *)
Theorem C85_partial w d s rnd c u : honest w -> carefully w (sys0 d) s -> careful w s c -> step w rnd s c <> Undef u.
Proof.
  intros Ho C Cf E. destruct (carefully_safe w d s Ho C) as [I S]. pose proof (honest_step w rnd s c Ho I S Cf) as G. rewrite E in G. exact G.
Qed.
Print Assumptions C85_partial.

(** Reading attributes and starting a search with any attributes. *)
Definition C84_claim (w : world) : Prop :=
  honest w -> forall d s rnd h ho t u, reach w (sys0 d) s -> given t ->
  step w rnd s (OGetAttributeValue h ho t) <> Undef u /\ step w rnd s (OFindObjectsInit h t) <> Undef u.
(** Attributes that every object has. *)
Theorem C84_partial w d s rnd h ho t u : honest w -> carefully w (sys0 d) s -> given t -> Forall (fun a => In (a_type a) plain) t ->
  step w rnd s (OGetAttributeValue h ho t) <> Undef u /\ step w rnd s (OFindObjectsInit h t) <> Undef u.
Proof.
  intros Ho C G P. rewrite Forall_forall in P. split; eapply C85_partial; eauto; cbn [careful].
  - intros x o _ _ a Ha. left. auto.
  - split; [exact G|]. intros x o a _ _ _ Ha. left. auto.
Qed.
Print Assumptions C84_partial.
(** Every attribute, when the object read is no certificate and no EC key. *)
Theorem C84_types_partial w d s rnd h ho t u : honest w -> carefully w (sys0 d) s ->
  (forall x o, sess_get s h = Some x -> find_obj s x ho = Some o -> o_class o <> CKO_CERTIFICATE /\ o_type o <> CKK_EC) ->
  step w rnd s (OGetAttributeValue h ho t) <> Undef u.
Proof.
  intros Ho C N. eapply C85_partial; eauto. cbn [careful]. intros x o X F a _. right. destruct (N x o X F) as [N1 N2].
  destruct (Z.eqb_spec (o_class o) CKO_CERTIFICATE); [contradiction|]. intros T. contradiction.
Qed.
Print Assumptions C84_types_partial.

(** The files written at a clean end can be read again: starting the library is a
    careful call then (and with no files at all). *)
Theorem C85_restart_partial w d s rnd s1 o1 : honest w -> carefully w (sys0 d) s -> s_count s = 1%Z -> fits (s_tok s) ->
  Forall (storable (w_se w)) (t_objs (s_tok s)) -> step w rnd s OFinalize = Ok (s1, o1) ->
  o1 = OutRv CKR_OK /\ careful w s1 OInitialize.
Proof.
  intros Ho Cf C F St H. destruct (carefully_safe w d s Ho Cf) as [_ (_ & T & _)].
  pose proof (ho_laws _ Ho) as L. pose proof (reach_ginv w (l_hash _ L) _ _ (carefully_reach _ _ _ Cf)) as G.
  assert (W : wf_tok (s_tok s)) by exact (wf_of (s_tok s) (t_objs (s_tok s)) G F eq_refl).
  cbn [step] in H. unfold Finalize in H. rewrite C in H. change (1 - 1 =? 0)%Z with true in H. cbv iota in H. unfold store in H.
  destruct (store_load (w_se w) (dh_law' _ L) (fun i => rnd (2 + i)%nat) (s_tok s) (s_fs s) W St) as (ws & E & Ld).
  rewrite E in H. cbn [bind] in H. destruct (final_all _); cbn [bind] in H; try discriminate. destruct (free_all _); cbn [bind] in H; try discriminate.
  injection H as <- <-. split; [reflexivity|]. cbn [careful s_count s_fs]. intros _ uid t. cbn [s_fs do_ops set_tok]. rewrite Ld. intros [= <-].
  cbn [reload t_objs]. clear - T St. revert uid. induction T as [|o l To T IH]; intros uid; cbn [reload_objs]; [constructor|].
  inversion St as [|? ? So St']. subst. constructor; [|apply IH; assumption]. destruct To as (_ & Tk & En).
  assert (V : o_class (reloaded uid o) = o_class o /\ o_type (reloaded uid o) = o_type o /\ o_onTok (reloaded uid o) = o_onTok o).
  { unfold reloaded. destruct (is_cert o); [repeat split|]. destruct (_ =? _)%Z; [|repeat split]. destruct (as_dh o) as [[[[? ?] ?] ?]| |]; repeat split. }
  destruct V as (V1 & V2 & V3). rewrite V3. split; [|exact Tk]. unfold encoded_ok in *. rewrite V1, V2. destruct En as [En|[K Q]]; [left; exact En|].
  destruct (Z.eq_dec (o_class o) CKO_CERTIFICATE) as [Ce|Ce]; [left; exact Ce|]. right. split; [exact K|]. intros Y. specialize (Q Y). destruct Q as (kd & Q1 & Q2).
  exists kd. split; [|exact Q2]. unfold reloaded. unfold is_cert. destruct (Z.eqb_spec (o_class o) CKO_CERTIFICATE); [contradiction|].
  assert (X : o_keyData (set_store (blank uid o) (o_iv o) (Some (kd_bytes o)) false) = Some kd) by (cbn; unfold kd_bytes; rewrite Q1; reflexivity).
  destruct (_ =? _)%Z; [|exact X]. destruct (as_dh o) as [[[[? ?] ?] ?]| |]; exact X.
Qed.
Print Assumptions C85_restart_partial.
Theorem C85_nofiles_partial w s : (forall f, s_fs s f = None) -> careful w s OInitialize.
Proof.
  intros N _ uid t. unfold Token_Load. rewrite N. intros [= <-]. constructor.
Qed.
Print Assumptions C85_nofiles_partial.

(** ** The concrete world is honest *)
Theorem toy_honest : honest tw.
Proof.
  constructor; try (cbn -[toy_gdec toy_genc toy_pk toy_dec oe_import oe_export]).
  - exact toy_laws.
  - intros k iv c H. unfold toy_dec. destruct (list_eq_dec _ _ _); [|discriminate]. intros _. cbn [snd]. unfold mask, zlen in *.
    rewrite map_length, firstn_length. lia.
  - reflexivity.
  - intros id pt _. unfold toe. cbn [oe_export oe_ecsize snd]. change (u32 (32 * 2 + 1)) with 65%Z. unfold zlen. rewrite firstn_length. lia.
  - intros. unfold toy_genc. destruct (orb _ _); discriminate.
  - intros. unfold toy_gdec. destruct (list_eqb _ _); discriminate.
  - intros. unfold toy_pk. destruct (_ <=? _)%Z; discriminate.
  - intros. unfold toy_pk. destruct (_ <=? _)%Z; discriminate.
  - intros. unfold toy_pk. destruct (_ <=? _)%Z; discriminate.
  - discriminate.
Qed.

(** ** Careless calls *)
Definition user : list op := setup ++ [OOpenSession 1 RW; userlogin upin].
Definition ec_pub : template := [mkA CKA_CLASS (ULONG CKO_PUBLIC_KEY); mkA CKA_KEY_TYPE (ULONG CKK_EC); mkA CKA_VERIFY TRUE].
Definition ec_params : attr := mkA CKA_EC_PARAMS (AV ([6; 8] ++ p256)%N).
Definition ec_point : attr := mkA CKA_EC_POINT (AV ([4; 65] ++ repeat 4 65)%N).
Definition secret (n : nat) : template :=
  [mkA CKA_CLASS (ULONG CKO_SECRET_KEY); mkA CKA_KEY_TYPE (ULONG CKK_GENERIC_SECRET); mkA CKA_VALUE (AV (repeat 7%N n))].
Definition rsa (c : Z) : template :=
  [mkA CKA_CLASS (ULONG c); mkA CKA_KEY_TYPE (ULONG CKK_RSA); mkA CKA_MODULUS (AV [33%N]); mkA CKA_PUBLIC_EXPONENT (AV [3%N])].
Definition gcm12 (tag : Z) : mparam := MPgcm (repeat 1%N 12) None tag.
Definition buf (n : nat) : aval := AV (zeros n).
Definition ecpair (pub : template) : op := OGenerateKeyPair H2 KP_EC pub [] (Some (GEc 5 [4; 1; 2]%N)).
Definition derived (n : Z) : template :=
  [mkA CKA_CLASS (ULONG CKO_SECRET_KEY); mkA CKA_KEY_TYPE (ULONG CKK_AES); mkA CKA_VALUE_LEN (ULONG n)].
(** Calls before, call, what goes wrong. *)
Definition careless : list (list op * op * ub) := [
  (* a label of one byte: 32 are read *)
  ([OInitialize], OInitToken 1 sopin [76%N], UB_read_overflow);
  (* an RSA attribute of an X.509 certificate: the certificate type 0 is also the key type of RSA *)
  (user ++ [OCreateObject H2 cert_tmpl], OGetAttributeValue H2 1 [mkA CKA_MODULUS (buf 8)], UB_union);
  (* a search for an RSA key while there is a certificate *)
  (user ++ [OCreateObject H2 cert_tmpl], OFindObjectsInit H2 [mkA CKA_MODULUS (AV [33%N])], UB_union);
  (* the curve of an EC key on the token before the login after a restart *)
  (user ++ [OCreateObject H2 (tokenly (ec_pub ++ [ec_params; ec_point])); OLogout H2; OFinalize; OInitialize; OOpenSession 1 RW],
   OGetAttributeValue H2 (2^28 + 1) [mkA CKA_EC_PARAMS (buf 10)], UB_null_deref);
  (* a search for an EC key at that time *)
  (user ++ [OCreateObject H2 (tokenly (ec_pub ++ [ec_params; ec_point])); OLogout H2; OFinalize; OInitialize; OOpenSession 1 RW],
   OFindObjectsInit H2 [ec_params], UB_null_deref);
  (* the point in a buffer of the size of the point *)
  (user ++ [OCreateObject H2 (ec_pub ++ [ec_params; ec_point])], OGetAttributeValue H2 1 [mkA CKA_EC_POINT (buf 65)], UB_write_overflow);
  (* an EC key with a point but no curve *)
  (user, OCreateObject H2 (ec_pub ++ [ec_point]), UB_null_deref);
  (* a secret of more than 512 bytes *)
  (user, OCreateObject H2 (secret 513), UB_write_overflow);
  (* CKA_TOKEN of value 2, then destruction of the object *)
  (user ++ [OCreateObject H2 (mkA CKA_TOKEN (AV [2%N]) :: aes_tmpl)], ODestroyObject H2 (2^29 + 1), UB_use_after_free);
  (* an attribute certificate on the token, turned into a key and destroyed: a file is closed twice *)
  (user ++ [OCreateObject H2 (tokenly [mkA CKA_CLASS (ULONG CKO_CERTIFICATE); mkA CKA_CERTIFICATE_TYPE (ULONG 1); mkA CKA_VALUE (AV [48; 1; 2]%N)]);
            OSetAttributeValue H2 (2^28 + 1) [mkA CKA_CLASS (ULONG CKO_SECRET_KEY)]], ODestroyObject H2 (2^28 + 1), UB_use_after_free);
  (* an RSA key of class secret key on the token *)
  (user, OCreateObject H2 (tokenly (rsa CKO_SECRET_KEY)), UB_read_overflow);
  (* an RSA key copied to the token without its class *)
  (user ++ [OCreateObject H2 (rsa CKO_PUBLIC_KEY)], OCopyObject H2 1 (tokenly []), UB_read_overflow);
  (* a certificate copied *)
  (user ++ [OCreateObject H2 cert_tmpl; OCopyObject H2 1 [mkA CKA_CLASS (ULONG CKO_CERTIFICATE)]],
   OGetAttributeValue H2 2 [mkA CKA_VALUE (buf 16)], UB_union);
  (* a key turned into a certificate, a certificate into a key *)
  (user ++ [OCreateObject H2 aes_tmpl; OSetAttributeValue H2 1 [mkA CKA_CLASS (ULONG CKO_CERTIFICATE)]],
   OGetAttributeValue H2 1 [mkA CKA_VALUE (buf 16)], UB_union);
  (user ++ [OCreateObject H2 cert_tmpl; OSetAttributeValue H2 1 [mkA CKA_CLASS (ULONG CKO_SECRET_KEY)]],
   OGetAttributeValue H2 1 [mkA CKA_MODULUS (buf 16)], UB_union);
  (* a key pair with room for one key *)
  (user ++ repeat (OCreateObject H2 aes_tmpl) 7, ecpair [ec_params], UB_use_after_free);
  (* an EC key pair without curve *)
  (user, ecpair [], UB_null_deref);
  (* a key derived from an AES key *)
  (user ++ [OCreateObject H2 aes_tmpl], ODeriveKey H2 D_ECDH 1 (Some (repeat 9%N 32)) (secret 0), UB_union);
  (* a derived key shorter than the secret *)
  (user ++ [ecpair [ec_params]], ODeriveKey H2 D_ECDH 2 (Some (repeat 9%N 32)) (derived 16), UB_read_overflow);
  (* a key destroyed while in use *)
  (user ++ [OCreateObject H2 aes_tmpl; OCrypto H2 (KEncryptInit M_AES_GCM (gcm12 128) 0) 1; ODestroyObject H2 1],
   OCrypto H2 (KEncrypt [] [1%N] (Buf 17)) 1, UB_use_after_free);
  (* a GCM ciphertext shorter than its tag *)
  (user ++ [OCreateObject H2 aes_tmpl; OCrypto H2 (KDecryptInit M_AES_GCM (gcm12 128) 0) 1],
   OCrypto H2 (KDecrypt [] [1%N] (Buf (2^32 - 1))) 1, UB_read_overflow);
  (user ++ [OCreateObject H2 aes_tmpl; OCrypto H2 (KDecryptInit M_AES_GCM (gcm12 128) 0) 1; OCrypto H2 (KDecryptUpdate [1%N] (Buf 16)) 1],
   OCrypto H2 (KDecryptFinal (Buf (2^32 - 1))) 1, UB_read_overflow);
  (* a tag of negative length *)
  (user ++ [OCreateObject H2 aes_tmpl; OCrypto H2 (KEncryptInit M_AES_GCM (gcm12 (-8)) 0) 1],
   OCrypto H2 (KEncryptFinal (Buf (2^32 - 1))) 1, UB_read_overflow);
  (* signing after a refused EncryptInit *)
  (user ++ [OCreateObject H2 (secret 20); OCreateObject H2 (firstn 3 aes_tmpl ++ [mkA CKA_VALUE (AV [1%N])]);
            OCrypto H2 (KSignInit (M_HMAC H_SHA256) MPnull 0) 1; OCrypto H2 (KEncryptInit M_AES_CBC (MPraw (zeros 16)) 0) 2],
   OCrypto H2 (KSign [] [1%N] (Buf 200)) 1, UB_union);
  (* a certificate as key *)
  (user ++ [OCreateObject H2 cert_tmpl], OCrypto H2 (KEncryptInit M_RSA_OAEP (MPoaep true 592 2 None) 0) 1, UB_union)].
Definition ub_eqb (a b : ub) : bool :=
  match a, b with
  | UB_write_overflow, UB_write_overflow | UB_read_overflow, UB_read_overflow | UB_use_after_free, UB_use_after_free
  | UB_null_deref, UB_null_deref | UB_diverge, UB_diverge | UB_union, UB_union => true
  | _, _ => false
  end.
Definition goes_wrong (e : list op * op * ub) : bool :=
  let '(l, c, u) := e in
  match hist l with
  | Ok (s, _) => match step tw (rnd 0) s c with Undef v => ub_eqb u v | _ => false end
  | _ => false
  end.
(** Every one of them is reached and goes wrong as said. *)
Theorem C85_careless l c u : In (l, c, u) careless ->
  reach tw (sys0 nofiles) (after l) /\ step tw (rnd 0) (after l) c = Undef u.
Proof.
  assert (E : forallb goes_wrong careless = true) by (vm_compute; reflexivity). intros I.
  rewrite forallb_forall in E. specialize (E _ I). unfold goes_wrong in E.
  assert (R : match hist l with Ok _ => True | _ => False end) by (destruct (hist l) as [[s o]| |]; try discriminate; exact Logic.I).
  split; [apply after_reach; exact R|]. unfold after. destruct (hist l) as [[s o]| |]; try discriminate.
  destruct (step tw (rnd 0) s c) as [| |v]; try discriminate. destruct u, v; try discriminate; reflexivity.
Qed.
Print Assumptions C85_careless.
Theorem C85_refuted : ~ C85_claim tw.
Proof.
  intros Cl. destruct (C85_careless _ _ _ (or_introl eq_refl)) as [R E]. exact (Cl toy_honest nofiles _ _ _ _ R E).
Qed.
Print Assumptions C85_refuted.
(** Both by a read and by a search. *)
Theorem C84_refuted : ~ C84_claim tw.
Proof.
  intros Cl. destruct (C85_careless _ _ _ (or_intror (or_introl eq_refl))) as [R E].
  assert (G : given [mkA CKA_MODULUS (buf 8)]) by (intros a [<-|[]]; eexists; reflexivity).
  destruct (Cl toy_honest nofiles _ (rnd 0) H2 1%Z _ UB_union R G) as [X _]. exact (X E).
Qed.
Print Assumptions C84_refuted.
Theorem C84_search_refuted : ~ (forall s rnd h t u, reach tw (sys0 nofiles) s -> given t -> step tw rnd s (OFindObjectsInit h t) <> Undef u).
Proof.
  intros Cl. destruct (C85_careless _ _ _ (or_intror (or_intror (or_introl eq_refl)))) as [R E].
  assert (G : given [mkA CKA_MODULUS (AV [33%N])]) by (intros a [<-|[]]; eexists; reflexivity).
  exact (Cl _ (rnd 0) H2 _ UB_union R G E).
Qed.
Print Assumptions C84_search_refuted.
(** Damaged files: the key data of an AES key cut to 15 bytes; the next login reads
    the tag in front of the buffer. *)
Definition cut : fs :=
  let s := after (user ++ [OCreateObject H2 (tokenly aes_tmpl); OLogout H2; OFinalize]) in
  fs_set (s_fs s) (F_SYMMKEY, 0) (arr (zeros 15)).
Theorem C85_files : exists s, reach tw (sys0 cut) s /\ step tw (rnd 0) s (userlogin upin) = Undef UB_read_overflow.
Proof.
  destruct (run tw (sys0 cut) (numbered 1 [OInitialize; OOpenSession 1 RW])) as [[s o]| |] eqn:E; [|vm_compute in E; discriminate..].
  exists s. split; [eapply run_reach; [apply reach_0|exact E]|]. vm_compute in E. injection E as <- _. vm_compute. reflexivity.
Qed.
Print Assumptions C85_files.

(** ** A careful history *)
Fixpoint careful_run (w : world) (s : sys) (l : list (op * (nat -> list N))) : Prop :=
  match l with
  | [] => True
  | (c, r) :: l => careful w s c /\ match step w r s c with Ok (s', _) => careful_run w s' l | _ => False end
  end.
Lemma careful_run_ok w s0 l : forall s, carefully w s0 s -> careful_run w s l -> exists s' o, run w s l = Ok (s', o) /\ carefully w s0 s'.
Proof.
  induction l as [|[c r] l IH]; intros s C R; cbn [run careful_run] in *; [eauto|]. destruct R as [R1 R2].
  destruct (step w r s c) as [[s1 o1]| |] eqn:E; [|contradiction..]. cbn [bind].
  destruct (IH s1) as (s2 & o2 & E2 & C2); [eapply carefully_step; eauto|exact R2|]. rewrite E2. cbn [bind]. eauto.
Qed.
Definition ct : list N :=
  match toy_genc (repeat 7%N 16) (repeat 1%N 12) None 0 [1; 2; 3]%N 16 with Ok (c, t) => c ++ t | _ => [] end.
(** An AES key on the token, read, found and used; an EC key pair and a key derived
    with it; a certificate; logout, end and a new start. *)
Definition tidy : list op :=
  user ++ [OCreateObject H2 (tokenly aes_tmpl); OGetAttributeValue H2 (2^28 + 1) [mkA CKA_VALUE (buf 16); mkA CKA_LABEL (buf 4)];
    OFindObjectsInit H2 [mkA CKA_KEY_TYPE (ULONG CKK_AES)]; OFindObjects H2 3; OFindObjectsFinal H2;
    OCrypto H2 (KEncryptInit M_AES_GCM (gcm12 128) 0) (2^28 + 1); OCrypto H2 (KEncrypt [] [1; 2; 3]%N (Buf 19)) 0;
    OCrypto H2 (KDecryptInit M_AES_GCM (gcm12 128) 0) (2^28 + 1); OCrypto H2 (KDecrypt [] ct (Buf 3)) 0;
    OGenerateKeyPair H2 KP_EC [ec_params] [mkA CKA_TOKEN FALSE] (Some (GEc 5 [4; 1; 2]%N));
    ODeriveKey H2 D_ECDH 2 (Some (repeat 9%N 32)) (derived 32); OCreateObject H2 (tokenly cert_tmpl);
    OGetAttributeValue H2 (2^28 + 2) [mkA CKA_VALUE (buf 16)]; OLogout H2].
Example tidy_ok : rvs tidy = repeat CKR_OK 23.
Proof. vm_compute. reflexivity. Qed.

Definition asked (t : template) : option Z * option Z :=
  let c := match ulong_in t CKA_CLASS with Some c => Some c | None => match find_last t CKA_CLASS with None => Some UNAVAILABLE | _ => None end end in
  (c, match c with Some c => ulong_in t (if (c =? CKO_CERTIFICATE)%Z then CKA_CERTIFICATE_TYPE else CKA_KEY_TYPE) | None => None end).
Lemma asks_is t cls ty : asks t cls ty -> asked t = (Some cls, Some ty).
Proof.
  intros [[E|[E ->]] T]; unfold asked.
  - rewrite E. rewrite T. reflexivity.
  - assert (U : ulong_in t CKA_CLASS = None) by (unfold ulong_in; rewrite E; reflexivity). rewrite U, E, T. reflexivity.
Qed.
(** A test that establishes [careful] (for concrete calls). *)
Definition givenb (t : template) : bool := forallb (fun a => match a_val a with AV _ => true | _ => false end) t.
Definition hasb (t : template) (ty : Z) : bool := existsb (fun a => a_type a =? ty)%Z t.
Definition secretb (ty : Z) : bool := orb (ty =? CKK_AES)%Z (ty =? CKK_GENERIC_SECRET)%Z.
Definition eachb (t : template) (ty : Z) (p : list N -> bool) : bool :=
  forallb (fun a => orb (negb (a_type a =? ty)%Z) (match a_val a with AV b => p b | _ => true end)) t.
Definition aptb (cls ty : Z) (t : template) : bool :=
  andb (givenb t) (andb (eachb t CKA_CLASS (fun b => ulong_of b =? cls)%Z)
  (andb (orb (negb (ty =? CKK_EC)%Z) (orb (negb (hasb t CKA_EC_POINT)) (hasb t CKA_EC_PARAMS)))
  (andb (orb (negb (secretb ty)) (eachb t CKA_VALUE_LEN (fun b => ulong_of b <=? 512)%Z))
        (orb (negb (secretb ty)) (eachb t CKA_VALUE (fun b => zlen b <=? 512)%Z))))).
Definition placedb (cls ty : Z) (t : template) : bool :=
  match tmpl_token t with
  | Some b => orb (b =? 0)%N (andb (N.odd b)
      (orb (negb (orb (ty =? CKK_RSA)%Z (ty =? CKK_EC)%Z))
           (orb (cls =? CKO_CERTIFICATE)%Z (orb (cls =? CKO_PRIVATE_KEY)%Z (cls =? CKO_PUBLIC_KEY)%Z))))
  | None => true
  end.
Lemma givenb_ok t : givenb t = true -> given t.
Proof. unfold givenb. rewrite forallb_forall. intros H a I. specialize (H a I). destruct (a_val a) as [b|n|b]; try discriminate. eauto. Qed.
Lemma hasb_ok t ty : hasb t ty = true <-> has t ty.
Proof.
  unfold hasb, has. rewrite existsb_exists. split.
  - intros ([ty' v] & I & E). cbn in E. apply Z.eqb_eq in E. subst. eauto.
  - intros (v & I). exists (mkA ty v). split; [exact I|]. cbn. apply Z.eqb_refl.
Qed.
Lemma eachb_ok t ty p : eachb t ty p = true -> forall b, In (mkA ty (AV b)) t -> p b = true.
Proof. unfold eachb. rewrite forallb_forall. intros H b I. specialize (H _ I). cbn in H. rewrite Z.eqb_refl in H. exact H. Qed.
Lemma secretb_ok ty : secret_type ty -> secretb ty = true.
Proof. intros [-> | ->]; reflexivity. Qed.
Lemma aptb_ok cls ty t : aptb cls ty t = true -> apt cls ty t.
Proof.
  unfold aptb. rewrite !andb_true_iff. intros (H1 & H2 & H3 & H4 & H5). constructor.
  - apply givenb_ok, H1.
  - intros b I. apply Z.eqb_eq. exact (eachb_ok _ _ _ H2 b I).
  - intros -> P. apply hasb_ok. apply hasb_ok in P. cbn [negb Z.eqb orb] in H3. change (CKK_EC =? CKK_EC)%Z with true in H3. rewrite P in H3. exact H3.
  - intros S b I. rewrite (secretb_ok _ S) in H4. apply Z.leb_le. exact (eachb_ok _ _ _ H4 b I).
  - intros S b I. rewrite (secretb_ok _ S) in H5. apply Z.leb_le. exact (eachb_ok _ _ _ H5 b I).
Qed.
Lemma placedb_ok cls ty t : placedb cls ty t = true -> placed cls ty t.
Proof.
  unfold placedb, placed. intros H b E. rewrite E in H. apply orb_true_iff in H as [H|H]; [left; apply N.eqb_eq, H|right].
  apply andb_true_iff in H as [H1 H2]. split; [exact H1|]. intros T. apply orb_true_iff in H2 as [H2|H2].
  - destruct T as [-> | ->]; discriminate.
  - rewrite !orb_true_iff, !Z.eqb_eq in H2. tauto.
Qed.
Definition create_okb (t : template) : bool :=
  match asked t with (Some cls, Some ty) => andb (aptb cls ty t) (placedb cls ty t) | _ => true end.
Lemma create_okb_ok t : create_okb t = true -> create_ok t.
Proof.
  intros H cls ty A. apply asks_is in A. unfold create_okb in H. rewrite A in H. apply andb_true_iff in H as [H1 H2]. split; [apply aptb_ok, H1|apply placedb_ok, H2].
Qed.
Definition readableb (o : obj) (a : attr) : bool :=
  orb (existsb (Z.eqb (a_type a)) plain)
  (if (o_class o =? CKO_CERTIFICATE)%Z then (a_type a =? CKA_VALUE)%Z else negb (o_type o =? CKK_EC)%Z).
Lemma readableb_ok oe o a : readableb o a = true -> readable oe o a.
Proof.
  unfold readableb, readable. intros H. apply orb_true_iff in H as [H|H].
  - left. apply existsb_exists in H as (x & I & E). apply Z.eqb_eq in E. subst. exact I.
  - right. destruct (_ =? _)%Z; [apply Z.eqb_eq, H|]. intros T. rewrite T in H. discriminate.
Qed.
Definition is_certb (o : obj) : bool := (o_class o =? CKO_CERTIFICATE)%Z.
(** Parameters: only GCM here. *)
Definition carefulb (s : sys) (c : op) : bool :=
  match c with
  | OInitialize => negb (s_count s =? 0)%Z
  | OInitToken _ _ label => (32 <=? zlen label)%Z
  | OCreateObject _ t => create_okb t
  | OGetAttributeValue h ho t =>
      match sess_get s h with
      | Some x => match find_obj s x ho with Some o => forallb (readableb o) t | None => true end
      | None => true
      end
  | OFindObjectsInit h t => andb (givenb t)
      (match sess_get s h with
       | Some x => forallb (fun o => forallb (readableb o) t) (t_objs (s_tok s) ++ ss_objs x)
       | None => true
       end)
  | OGenerateKeyPair h m tp tq g =>
      andb (aptb CKO_PUBLIC_KEY (kp_type m) tp) (andb (placedb CKO_PUBLIC_KEY (kp_type m) tp)
      (andb (aptb CKO_PRIVATE_KEY (kp_type m) tq) (andb (placedb CKO_PRIVATE_KEY (kp_type m) tq)
      (andb (match tmpl_token tq with Some _ => true | None => false end) (andb (hasb tp CKA_EC_PARAMS)
      (andb (match g with Some (GEc _ _) => true | _ => false end) (andb (zlen (t_objs (s_tok s)) + 2 <=? TOK_OBJ_MAX)%Z
      (match sess_get s h with Some x => zlen (ss_objs x) + 2 <=? SESS_OBJ_MAX | None => true end)%Z)))))))
  | ODeriveKey h m hb sec t =>
      andb (match sess_get s h with
            | Some x => match find_obj s x hb with
                        | Some b => andb (negb (is_certb b)) (o_type b =? match m with D_ECDH => CKK_EC | _ => CKK_DH end)%Z
                        | None => true
                        end
            | None => true
            end)
      (andb (create_okb t) (andb (match asked t with (Some cls, Some ty) => andb (negb (cls =? CKO_CERTIFICATE)%Z) (secretb ty) | _ => true end)
      (andb (negb (hasb t CKA_VALUE)) (match sec with
        | Some d => andb (zlen d <=? 512)%Z (eachb t CKA_VALUE_LEN (fun b => zlen d <=? ulong_of b)%Z)
        | None => true
        end))))
  | OCrypto h c hk =>
      match sess_get s h with
      | None => true
      | Some x =>
          match init_of c with
          | Some (M_AES_GCM, MPgcm iv None tb) =>
              andb (match find_obj s x hk with Some o => negb (is_certb o) | None => true end)
                   (andb (zlen iv <? 2^31)%Z (andb (0 <=? tb)%Z (tb <? 2^31)%Z))
          | Some _ => false
          | None =>
              andb (match c with
                    | KEncrypt _ d _ => zlen d <? 2^31
                    | KDecrypt _ d _ => andb (zlen d <? 2^31) (gcm_tag (ss_op x) <=? zlen d)
                    | _ => false
                    end)%Z
                   (match os_curr (ss_op x) with
                    | Some u => match find_uid s u with Some o => negb (is_certb o) | None => false end
                    | None => true
                    end)
          end
      end
  | OCopyObject _ _ _ | OSetAttributeValue _ _ _ | OGenerateKey _ _ _ _ | OWrapKey _ _ _ _ _ _ | OUnwrapKey _ _ _ _ _ _ => false
  | _ => true
  end.
Lemma carefulb_ok s c : carefulb s c = true -> careful tw s c.
Proof.
  destruct c; cbn [carefulb careful]; try discriminate; try (intros _; exact Logic.I).
  - intros H E. rewrite E in H. discriminate.
  - apply Z.leb_le.
  - apply create_okb_ok.
  - intros H x o X F a I. rewrite X, F in H. rewrite forallb_forall in H. apply readableb_ok. auto.
  - rewrite andb_true_iff. intros [H1 H2]. split; [apply givenb_ok, H1|]. intros x o a X I _ Ia. rewrite X, forallb_forall in H2. specialize (H2 o I).
    rewrite forallb_forall in H2. apply readableb_ok. auto.
  - rewrite !andb_true_iff. intros (H1 & H2 & H3 & H4 & H5 & H6 & H7 & H8 & H9). apply aptb_ok in H1, H3. apply placedb_ok in H2, H4. apply hasb_ok in H6.
    split; [exact H1|]. split; [exact H2|]. split; [exact H3|]. split; [exact H4|]. split; [destruct (tmpl_token tpriv); discriminate|].
    split; [auto|]. split; [destruct g as [[]|]; try discriminate; intros c; cbn; lia|]. split; [apply Z.leb_le, H8|].
    intros x X. rewrite X in H9. apply Z.leb_le, H9.
  - rewrite !andb_true_iff. intros (H1 & H2 & H3 & H4 & H5). split; [|split; [apply create_okb_ok, H2|split; [|split]]].
    + intros x b X F. rewrite X, F in H1. apply andb_true_iff in H1 as [H1 T]. apply Z.eqb_eq in T. split; [|exact T]. unfold is_certb in H1. intros C. unfold cert in C. rewrite C in H1. discriminate.
    + intros cls ty A. apply asks_is in A. rewrite A in H3. apply andb_true_iff in H3 as [H3 S]. split.
      * intros ->. discriminate.
      * unfold secretb in S. apply orb_true_iff in S. rewrite !Z.eqb_eq in S. exact S.
    + intros C. apply hasb_ok in C. rewrite C in H4. discriminate.
    + intros d ->. apply andb_true_iff in H5 as [H5 H6]. split; [apply Z.leb_le, H5|]. intros b I. right. apply Z.leb_le. exact (eachb_ok _ _ _ H6 b I).
  - intros H x X. rewrite X in H. destruct (init_of c) as [[m mp]|].
    + destruct m; try discriminate. destruct mp; try discriminate. destruct aad; [discriminate|]. rewrite !andb_true_iff in H. destruct H as (H1 & H2 & H3 & H4).
      intros o F. rewrite F in H1. split; [intros C; unfold is_certb, cert in *; rewrite C in H1; discriminate|]. cbn [fit]. apply Z.ltb_lt in H2, H4. apply Z.leb_le in H3. auto.
    + apply andb_true_iff in H as [H1 H2]. split.
      * destruct c; try discriminate; cbn [fed]; unfold small; [apply Z.ltb_lt, H1|]. apply andb_true_iff in H1 as [H1 H3]. apply Z.ltb_lt in H1. apply Z.leb_le in H3. auto.
      * intros u U. rewrite U in H2. destruct (find_uid s u) as [o|]; [|discriminate]. split; [discriminate|]. intros o' [= <-] C. unfold is_certb, cert in *. rewrite C in H2. discriminate.
Qed.
Fixpoint careful_runb (s : sys) (l : list (op * (nat -> list N))) : bool :=
  match l with
  | [] => true
  | (c, r) :: l => andb (carefulb s c) (match step tw r s c with Ok (s', _) => careful_runb s' l | _ => false end)
  end.
Lemma careful_runb_ok l : forall s, careful_runb s l = true -> careful_run tw s l.
Proof.
  induction l as [|[c r] l IH]; intros s H; cbn [careful_runb careful_run] in *; [exact Logic.I|]. apply andb_true_iff in H as [H1 H2]. split; [apply carefulb_ok, H1|].
  destruct (step tw r s c) as [[s' o]| |]; try discriminate. auto.
Qed.
Lemma tidy_careful : carefully tw (sys0 nofiles) (after tidy).
Proof.
  assert (C : careful_run tw (sys0 nofiles) (numbered 1 tidy)).
  { assert (T : tidy = OInitialize :: tl tidy) by reflexivity. rewrite T. cbn [numbered careful_run]. split; [apply C85_nofiles_partial; reflexivity|].
    destruct (step tw (rnd 1) (sys0 nofiles) OInitialize) as [[s o]| |] eqn:E; [|vm_compute in E; discriminate..]. apply careful_runb_ok.
    vm_compute in E. injection E as <- _. vm_compute. reflexivity. }
  destruct (careful_run_ok tw _ _ _ (carefully_0 _ _) C) as (s & o & E & R). unfold after, hist. rewrite E. exact R.
Qed.

Example C85_partial_ex u : step tw (rnd 0) (after tidy) (OFindObjectsInit H2 [mkA CKA_LABEL (AV [])]) <> Undef u.
Proof. eapply C85_partial; [exact toy_honest|exact tidy_careful|]. apply carefulb_ok. vm_compute. reflexivity. Qed.
Example C84_partial_ex u : step tw (rnd 0) (after tidy) (OGetAttributeValue H2 (2^28 + 2) [mkA CKA_CLASS (buf 8); mkA CKA_ID (buf 3)]) <> Undef u.
Proof.
  set (t := [mkA CKA_CLASS (buf 8); mkA CKA_ID (buf 3)]). assert (G : given t) by (apply givenb_ok; reflexivity).
  assert (P : Forall (fun a => In (a_type a) plain) t) by (repeat constructor; vm_compute; tauto).
  exact (proj1 (C84_partial tw nofiles (after tidy) (rnd 0) H2 (2^28 + 2) t u toy_honest tidy_careful G P)).
Qed.
Lemma tidy_fits : fits (s_tok (after tidy)).
Proof.
  unfold fits. split; [|split].
  - split; [|split]; split; vm_compute; first [discriminate|reflexivity].
  - split; [|split]; split; vm_compute; first [discriminate|reflexivity].
  - assert (E : map (fun o => (o_keyId o, o_label o)) (t_objs (s_tok (after tidy))) = repeat (SNull 0, SNull 0) 2) by (vm_compute; reflexivity).
    apply Forall_forall. intros o Ho. apply (in_map (fun o => (o_keyId o, o_label o))) in Ho. rewrite E in Ho. apply repeat_spec in Ho. injection Ho as -> ->. split; reflexivity.
Qed.
Lemma tidy_storable : Forall (storable tse) (t_objs (s_tok (after tidy))).
Proof.
  let l := eval vm_compute in (t_objs (s_tok (after tidy))) in replace (t_objs (s_tok (after tidy))) with l by (vm_compute; reflexivity).
  constructor; [|constructor; [|constructor]]; unfold storable; by_type.
  - do 2 eexists. split; [reflexivity|]. split; [split; [reflexivity|vm_compute; discriminate]|]. split; reflexivity.
  - split; [vm_compute; discriminate|]. split; [eexists; split; [reflexivity|vm_compute; reflexivity]|]. intros T. vm_compute in T. discriminate T.
Qed.
Definition keen : list op := tidy ++ [OFinalize; OInitialize; OOpenSession 1 RW; userlogin upin].
Example keen_ok : rvs keen = repeat CKR_OK 27 /\ length (t_objs (s_tok (after keen))) = 2%nat.
Proof. vm_compute. repeat split. Qed.
(** The history goes on after the restart. *)
Example C85_restart_ex : exists s, carefully tw (sys0 nofiles) s /\ length (t_objs (s_tok s)) = 2%nat /\ t_login (s_tok s) = RW_USER.
Proof.
  destruct (step tw (rnd 0) (after tidy) OFinalize) as [[s1 o1]| |] eqn:E1; [|vm_compute in E1; discriminate..].
  assert (C1 : carefully tw (sys0 nofiles) s1) by (eapply carefully_step; [exact tidy_careful| |exact E1]; exact Logic.I).
  destruct (C85_restart_partial tw nofiles (after tidy) (rnd 0) s1 o1 toy_honest tidy_careful) as [_ C2];
    [vm_compute; reflexivity|apply tidy_fits|apply tidy_storable|exact E1|].
  destruct (step tw (rnd 0) s1 OInitialize) as [[s2 o2]| |] eqn:E2; [|vm_compute in E1; injection E1 as <- _; vm_compute in E2; discriminate..].
  assert (C3 : carefully tw (sys0 nofiles) s2) by (eapply carefully_step; eauto).
  destruct (careful_run_ok tw (sys0 nofiles) (numbered 1 [OOpenSession 1 RW; userlogin upin]) s2 C3) as (s3 & o3 & E3 & C4).
  { apply careful_runb_ok. vm_compute in E1. injection E1 as <- _. vm_compute in E2. injection E2 as <- _. vm_compute. reflexivity. }
  exists s3. split; [exact C4|]. clear C1 C2 C3 C4. vm_compute in E1. injection E1 as <- _. vm_compute in E2. injection E2 as <- _. vm_compute in E3. injection E3 as <- _. vm_compute. split; reflexivity.
Qed.
