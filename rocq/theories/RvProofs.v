(** No call of an initialised library answers CKR_CRYPTOKI_NOT_INITIALIZED. *)
From Verif Require Import Base Ops Object Store Sys.

(** The return value taken from a result. *)
Definition good {A} (f : A -> Z) (r : res A) : Prop := match r with Ok a => f a <> 0x190%Z | _ => True end.
Lemma good_bind A B (f : B -> Z) (r : res A) (k : A -> res B) : (forall a, r = Ok a -> good f (k a)) -> good f (bind r k).
Proof. destruct r; cbn; auto. Qed.
Lemma good_use A (f : A -> Z) r a : good f r -> r = Ok a -> f a <> 0x190%Z.
Proof. intros G ->. exact G. Qed.
Ltac gd :=
  repeat match goal with
  | |- good _ (bind _ _) => apply good_bind; intros ? ?
  | |- good _ (if ?b then _ else _) => destruct b eqn:?
  | |- good _ (match ?x with _ => _ end) => destruct x eqn:?
  | |- good _ (Ok _) => red; cbn [o_rv out_rv fst snd fail verdict]
  | |- good _ (Undef _) => exact I
  | |- good _ (Err _) => exact I
  | |- good _ (let '_ := ?x in _) => destruct x eqn:?
  end.
Definition orv (x : opst * outc) : Z := o_rv (snd x).

Section W.
Variable ev : env.
Variable objs : nat -> option keyobj.
Notation Gd := (good orv).
Ltac op := intros; gd; unfold orv; cbn; try discriminate;
  try match goal with |- (if ?b then _ else _) <> _ => destruct b; discriminate end.
Lemma good_sized st n b k : Gd k -> Gd (sized st n b k).
Proof. unfold sized. op. exact H. Qed.
Lemma good_with_obj st b f : (forall n, Gd (f n)) -> Gd (with_obj st b f).
Proof. unfold with_obj. op. apply H. Qed.
Lemma good_need_init st i b f : Gd f -> Gd (need_init st i b f).
Proof. unfold need_init, not_init. op. exact H. Qed.
Lemma good_conclude b st r : Gd (conclude b st r).
Proof. unfold conclude. destruct r as [[[? ?] ?]| |]; op. Qed.

Ltac all := op; repeat first [apply good_sized | apply good_with_obj; intros | apply good_need_init | apply good_conclude | progress op].
Definition zrv (x : opst * Z) : Z := snd x.
Lemma init_nn f st m mp k : (forall ko, good zrv (f st m mp k ko)) -> Gd (init_call objs f st m mp k).
Proof.
  intros H. unfold init_call. destruct (objs k) as [ko|]; [|all]. specialize (H ko).
  destruct (f st m mp k ko) as [[st' rv]| |]; cbn [bind]; [exact H|exact I|exact I].
Qed.
Ltac ini := intros; unfold C_EncryptInit, C_DecryptInit, C_SignInit, C_VerifyInit, gcm_init, rsa_noparam, oaep_init, cbc_init, pss_init, ecdsa_init, hmac_init;
  repeat (gd; unfold zrv; cbn [snd]; try discriminate; try match goal with |- snd (if ?b then _ else _) <> _ => destruct b | |- snd (match ?b with _ => _ end) <> _ => destruct b end).
Lemma ops_nn st c : Gd (Ops.step ev objs st c).
Proof.
  destruct c; cbn [Ops.step].
  1-4: apply init_nn; ini.
  - unfold C_Encrypt, pk_crypt. all.
  - unfold C_EncryptUpdate. all.
  - unfold C_EncryptFinal. all.
  - unfold C_Decrypt, pk_crypt. all.
  - unfold C_DecryptUpdate. all.
  - unfold C_DecryptFinal. all.
  - unfold C_Sign, pk_sign. all.
  - unfold C_SignUpdate, hmac_update. all.
  - unfold C_SignFinal. all.
  - unfold C_Verify, pk_verify, verdict. all.
  - unfold C_VerifyUpdate, hmac_update. all.
  - unfold C_VerifyFinal, verdict. all.
  - all.
Qed.
End W.

(** ** Objects *)
Ltac fin_ := repeat (gd; cbn [fst snd]; try discriminate).
Lemma check_attr_nn set a : check_attr set a <> 0x190%Z.
Proof. unfold check_attr. repeat match goal with |- context [match ?x with _ => _ end] => destruct x end; discriminate. Qed.
Lemma check_attrs_nn set t : check_attrs set t <> 0x190%Z.
Proof.
  induction t as [|a t IH]; cbn; [discriminate|]. pose proof (check_attr_nn set a). destruct (_ =? _)%Z; auto.
Qed.
Lemma get_rv_nn c : get_rv c <> 0x190%Z.
Proof. unfold get_rv. repeat match goal with |- context [if ?x then _ else _] => destruct x end; discriminate. Qed.
Lemma set_rv_nn c : set_rv c <> 0x190%Z.
Proof. unfold set_rv. repeat match goal with |- context [if ?x then _ else _] => destruct x end; discriminate. Qed.
Section O.
Variable oe : oenv.
Definition f1 {A} (x : Z * A) : Z := fst x.
Definition f2 {A B} (x : Z * A * B) : Z := fst (fst x).
Lemma get_loop_nn o t : good f1 (get_loop oe o t).
Proof.
  induction t as [|a t IH]; cbn [get_loop]; gd; unfold f1 in *; cbn; try discriminate; [|apply get_rv_nn].
  eapply good_use in IH; [|eassumption]. exact IH.
Qed.
Lemma GetAttributeValue_nn o t : good f1 (GetAttributeValue oe o t).
Proof. unfold GetAttributeValue. destruct (_ =? _)%Z; [apply get_loop_nn|apply check_attrs_nn]. Qed.
Lemma set_loop_nn o t : good f1 (set_loop o t).
Proof.
  revert o. induction t as [|a t IH]; intros o; cbn [set_loop]; gd; try apply IH; unfold f1; cbn; try discriminate. apply set_rv_nn.
Qed.
Lemma SetAttributeValue_nn rw o t : good f1 (SetAttributeValue oe rw o t).
Proof. unfold SetAttributeValue. gd; try apply set_loop_nn; unfold f1; cbn; try discriminate. apply check_attrs_nn. Qed.
Lemma NewObject_nn rw uid ty cls t : good f1 (NewObject oe rw uid ty cls t).
Proof. unfold NewObject. gd. unfold f1; cbn. apply (good_use _ f1 _ _ (SetAttributeValue_nn _ _ _) H). Qed.
Lemma CreateObject_nn rw uid t : good f1 (CreateObject oe rw uid t).
Proof. unfold CreateObject. gd; try apply NewObject_nn; unfold f1; cbn; discriminate. Qed.
Lemma CopyObject_nn rw uid src t : good f2 (CopyObject oe rw uid src t).
Proof.
  unfold CopyObject. gd; unfold f2; cbn; try discriminate.
  - apply (good_use _ f1 _ _ (GetAttributeValue_nn _ _) H).
  - eapply (good_use _ f1 _ (_, _) (SetAttributeValue_nn _ _ _)). eassumption.
Qed.
End O.

(** ** The API *)
Section A.
Variable w : world.
Definition srv (x : sys * out) : Z := out_rv (snd x).
Notation Gs := (good srv).
Ltac ap := intros; unfold rv_; gd; unfold srv; cbn [out_rv snd]; try discriminate.
Lemma AddObject_nn rnd s x t o : good f2 (AddObject w rnd s x t o).
Proof. unfold AddObject. gd; unfold f2; cbn [fst snd]; try discriminate. destruct (_ =? _)%Z; discriminate. Qed.
Lemma run_init_nn s x c o : good (fun r => o_rv (snd r)) (run_init w s x c o).
Proof. unfold run_init. gd. cbn. eapply (good_use _ orv _ (_, _) (ops_nn _ _ _ _)). eassumption. Qed.
Lemma run_cont_nn s x c : good (fun r => o_rv (snd r)) (run_cont w s x c).
Proof. unfold run_cont. gd; cbn; eapply (good_use _ orv _ (_, _) (ops_nn _ _ _ _)); eassumption. Qed.
Ltac use := match goal with
  | H : AddObject _ _ _ _ _ _ = Ok _ |- _ => apply (good_use _ f2 _ _ (AddObject_nn _ _ _ _ _) H)
  | H : NewObject _ _ _ _ _ _ = Ok _ |- _ => apply (good_use _ f1 _ _ (NewObject_nn _ _ _ _ _ _) H)
  | H : CreateObject _ _ _ _ = Ok _ |- _ => apply (good_use _ f1 _ _ (CreateObject_nn _ _ _ _) H)
  | H : CopyObject _ _ _ _ _ = Ok _ |- _ => apply (good_use _ f2 _ _ (CopyObject_nn _ _ _ _ _) H)
  | H : GetAttributeValue _ _ _ = Ok _ |- _ => apply (good_use _ f1 _ _ (GetAttributeValue_nn _ _ _) H)
  | H : SetAttributeValue _ _ _ _ = Ok _ |- _ => apply (good_use _ f1 _ _ (SetAttributeValue_nn _ _ _ _) H)
  | H : run_init _ _ _ _ _ = Ok _ |- _ => apply (good_use _ _ _ _ (run_init_nn _ _ _ _) H)
  | H : run_cont _ _ _ _ = Ok _ |- _ => apply (good_use _ _ _ _ (run_cont_nn _ _ _) H)
  end.
Ltac dn := ap; subst; try solve [match goal with |- (if ?b then _ else _) <> _ => destruct b; discriminate end]; try use.
Lemma login_rv_nn b c : login_rv b c <> 0x190%Z.
Proof. unfold login_rv. repeat match goal with |- context [if ?x then _ else _] => destruct x end; discriminate. Qed.
Definition api (c : op) : bool := match c with OInitialize | OFinalize | ORestart => false | _ => true end.
Lemma step_nn rnd s c s' o : api c = true -> (0 < s_count s)%Z -> step w rnd s c = Ok (s', o) -> out_rv o <> CKR_CRYPTOKI_NOT_INITIALIZED.
Proof.
  intros A C H. refine (good_use _ srv _ (s', o) _ H). apply Z.ltb_lt in C.
  destruct c; try discriminate A; cbn [step]; unfold with_slot, with_sess, need_lib; rewrite C; cbv iota;
  match goal with |- good _ (match ?x with _ => _ end) => destruct x; [|ap] end; unfold need_rw, with_object.
  - unfold InitToken. dn.
  - unfold InitPIN. dn.
  - unfold SetPIN. dn.
  - unfold OpenSession. dn.
  - unfold CloseSession. dn.
  - dn.
  - dn.
  - unfold Login. dn; apply login_rv_nn.
  - dn.
  - dn.
  - unfold Create. dn.
  - unfold Copy. dn.
  - dn.
  - dn.
  - dn.
  - unfold FindInit. dn.
  - unfold FindNext. dn.
  - dn.
  - unfold GenKey. dn.
  - unfold GenKeyPair. dn.
  - unfold Wrap. dn.
  - unfold Unwrap. dn.
  - unfold Derive. dn.
  - dn.
Qed.
End A.
