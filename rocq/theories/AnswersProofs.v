(** The answers of the functions are those of the table [answers] of Answers.v. *)
From Verif Require Import Base Cbc Ops Object Mech Info Store Sys Api Answers.
From Coq Require Import String.
Local Open Scope string_scope.
Local Open Scope Z_scope.
Local Open Scope list_scope.

Definition inb (r : Z) (l : list Z) : bool := existsb (Z.eqb r) l.
Definition sub (a b : list Z) : bool := forallb (fun r => inb r b) a.
Lemma inb_In r l : inb r l = true <-> In r l.
Proof. unfold inb. rewrite existsb_exists. split; [intros (x & H & E); apply Z.eqb_eq in E; subst; exact H|intros H; exists r; split; [exact H|apply Z.eqb_refl]]. Qed.
Lemma sub_ok a b r : sub a b = true -> inb r a = true -> inb r b = true.
Proof. intros S H. apply inb_In in H. unfold sub in S. rewrite forallb_forall in S. exact (S r H). Qed.

Ltac one H :=
  match type of H with
  | bind ?x _ = Ok _ => let E := fresh "E" in destruct x eqn:E; cbn [bind] in H; [|discriminate H|discriminate H]
  | (if ?b then _ else _) = Ok _ => let E := fresh "B" in destruct b eqn:E
  | (let '(_, _) := ?x in _) = Ok _ => let E := fresh "E" in destruct x eqn:E
  | match ?x with _ => _ end = Ok _ => let E := fresh "E" in destruct x eqn:E
  end.
Ltac all H := repeat (one H; try discriminate H); try discriminate H.
Ltac fin := first [reflexivity | eapply sub_ok; [|eassumption]; reflexivity].

(** ** Objects *)
Definition chk (set : bool) : list Z := if set then [0; 0x12; 0x13; 0x150] else [0; 0x12; 0x150].
Lemma check_attrs_rv b t : inb (check_attrs b t) (chk b) = true.
Proof.
  induction t as [|a t IH]; cbn [check_attrs]; [destruct b; reflexivity|]. destruct (check_attr b a =? CKR_OK) eqn:E; [exact IH|].
  unfold check_attr. destruct (kind_of (a_type a)) as [[]|], (a_val a), b; cbn [negb andb]; repeat match goal with |- context [if ?c then _ else _] => destruct c end; reflexivity.
Qed.
Lemma set_loop_rv t : forall o rv o', set_loop o t = Ok (rv, o') -> inb rv [0; 6; 0x13; 0x150] = true.
Proof.
  induction t as [|a t IH]; cbn [set_loop]; intros o rv o' H; [injection H as <- _; reflexivity|].
  destruct (SetAttr o a) as [[c o1]| |]; cbn [bind] in H; try discriminate. destruct (set_rv c =? CKR_OK); [eapply IH; exact H|]. injection H as <- _.
  unfold set_rv. destruct (c =? 0); [reflexivity|]. destruct (c =? BAD_FUNC_ARG); [reflexivity|]. destruct (c =? BUFFER_E); reflexivity.
Qed.
Lemma SetAttributeValue_rv oe o t rv o' : SetAttributeValue oe true o t = Ok (rv, o') -> inb rv (set_ ++ [0x82]) = true /\ (params_of o <> None -> inb rv set_ = true).
Proof.
  unfold SetAttributeValue. cbn [negb]. cbv zeta. pose proof (check_attrs_rv true t) as C. destruct (check_attrs true t =? CKR_OK); cbn [negb]; intros H.
  2:{ injection H as <- _. split; [|intros _]; eapply sub_ok; try exact C; reflexivity. }
  destruct (params_of o) as [ps|]; [|injection H as <- _; split; [reflexivity|intros N; contradiction N; reflexivity]].
  assert (K : inb rv set_ = true); [|split; [|intros _; exact K]; eapply sub_ok; [|exact K]; reflexivity].
  destruct (param_vals t ps) as [v|]; [|injection H as <- _; reflexivity]. destruct (SetKey oe o v) as [[c o1]| |]; cbn [bind] in H; try discriminate.
  destruct (c =? MEMORY_E); [injection H as <- _; reflexivity|]. destruct (c =? 0); cbn [negb] in H; [|injection H as <- _; reflexivity].
  apply set_loop_rv in H. eapply sub_ok; [|exact H]. reflexivity.
Qed.
Lemma SetAttributeValue_ro oe o t rv o' : SetAttributeValue oe false o t = Ok (rv, o') -> rv = 0xB5.
Proof. unfold SetAttributeValue. cbn [negb]. intros H. injection H as <- _. reflexivity. Qed.
Definition kinds : list Z := [0; 3; 2; 0x1F; 0x10].
Lemma NewObject_rv oe rw u ty cls t rv o : inb ty kinds = true \/ cls = 1 -> NewObject oe rw u ty cls t = Ok (rv, o) -> inb rv (set_ ++ [0xB5]) = true /\ (o = None -> rv <> 0).
Proof.
  intros K. unfold NewObject. destruct (SetAttributeValue _ _ _ _) as [[rv1 o1]| |] eqn:E; cbn [bind]; intros H; try discriminate. injection H as <- <-.
  split; [|destruct (Z.eqb_spec rv1 CKR_OK); [discriminate|intros _; assumption]].
  destruct rw; [|apply SetAttributeValue_ro in E as ->; reflexivity]. apply SetAttributeValue_rv in E as [_ E].
  assert (N : params_of (set_class (obj_new u ty) cls) <> None).
  { unfold params_of. cbn [o_class set_class]. change (o_type (set_class (obj_new u ty) cls)) with ty. destruct K as [K|K]; [|rewrite K; discriminate].
    destruct (cls =? CKO_CERTIFICATE); [discriminate|]. apply inb_In in K. cbn in K. destruct K as [<-|[<-|[<-|[<-|[<-|[]]]]]]; discriminate. }
  specialize (E N). eapply sub_ok; [|exact E]. reflexivity.
Qed.
Lemma mem_inb x l : mem x l = inb x l.
Proof. reflexivity. Qed.
Lemma CreateObject_rv oe rw u t rv o : CreateObject oe rw u t = Ok (rv, o) -> inb rv (set_ ++ [0xB5; 0xD0]) = true.
Proof.
  unfold CreateObject. intros H.
  assert (B : forall cls, (let '(ty, good) := if (cls =? CKO_CERTIFICATE)%Z then (CKA_CERTIFICATE_TYPE, [0; 1; 2]%Z) else (CKA_KEY_TYPE, [CKK_RSA; CKK_EC; CKK_DH; CKK_AES; CKK_GENERIC_SECRET]) in
    match find_last t ty with
    | None => Ok (CKR_TEMPLATE_INCOMPLETE, None)
    | Some a => match tmpl_ulong a with None => Ok (CKR_ATTRIBUTE_VALUE_INVALID, None) | Some k => if mem k good then NewObject oe rw u k cls t else Ok (CKR_ATTRIBUTE_VALUE_INVALID, None) end
    end) = Ok (rv, o) -> inb rv (set_ ++ [0xB5; 0xD0]) = true).
  { clear H. intros cls H. destruct (Z.eqb_spec cls CKO_CERTIFICATE) as [Q|N].
    - destruct (find_last t _); [|injection H as <- _; reflexivity]. destruct (tmpl_ulong a) as [k|]; [|injection H as <- _; reflexivity]. destruct (mem k _); [|injection H as <- _; reflexivity].
      apply NewObject_rv in H as [H _]; [|right; exact Q]. eapply sub_ok; [|exact H]. reflexivity.
    - destruct (find_last t _); [|injection H as <- _; reflexivity]. destruct (tmpl_ulong a) as [k|]; [|injection H as <- _; reflexivity]. destruct (mem k _) eqn:M; [|injection H as <- _; reflexivity].
      apply NewObject_rv in H as [H _]; [|left; exact M]. eapply sub_ok; [|exact H]. reflexivity. }
  destruct (find_last t CKA_CLASS); [|exact (B UNAVAILABLE H)]. destruct (tmpl_ulong a) as [c|]; [exact (B c H)|]. injection H as <- _. reflexivity.
Qed.
Lemma get_loop_rv oe o t : forall rv t', get_loop oe o t = Ok (rv, t') -> inb rv [0; 6; 0x12; 0x150; UNAVAILABLE] = true.
Proof.
  induction t as [|a t IH]; cbn [get_loop]; intros rv t' H; [injection H as <- _; reflexivity|].
  destruct (GetAttr oe o _ _) as [[[c l] d]| |]; cbn [bind fst] in H; try discriminate. cbv zeta in H. destruct (get_rv c =? CKR_OK).
  - destruct (get_loop oe o t) as [[rv' r']| |]; cbn [bind] in H; try discriminate. injection H as <- _. eapply IH. reflexivity.
  - injection H as <- _. unfold get_rv. destruct (c =? 0); [reflexivity|]. destruct (c =? BAD_FUNC_ARG); [reflexivity|]. destruct (c =? BUFFER_E); [reflexivity|]. destruct (c =? NOT_AVAILABLE_E); reflexivity.
Qed.
Lemma GetAttributeValue_rv oe o t rv t' : GetAttributeValue oe o t = Ok (rv, t') -> inb rv [0; 6; 0x12; 0x150; UNAVAILABLE] = true.
Proof.
  unfold GetAttributeValue. cbv zeta. pose proof (check_attrs_rv false t) as C. destruct (check_attrs false t =? CKR_OK); intros H; [eapply get_loop_rv; exact H|].
  injection H as <- _. eapply sub_ok; [|exact C]. reflexivity.
Qed.
Lemma CopyObject_rv oe rw u src t rv t1 r : CopyObject oe rw u src t = Ok (rv, t1, r) -> inb rv (set_ ++ [0x82; 0xB5; UNAVAILABLE]) = true.
Proof.
  unfold CopyObject. destruct (tmpl_token t); intros H; [|injection H as <- _ _; reflexivity]. destruct (GetAttributeValue oe src t) as [[rv0 t0]| |] eqn:G; cbn [bind] in H; try discriminate.
  apply GetAttributeValue_rv in G. destruct (rv0 =? CKR_OK); cbn [negb] in H; [|injection H as <- _ _; eapply sub_ok; [|exact G]; reflexivity].
  destruct (SetAttributeValue oe rw _ t0) as [[rv2 o2]| |] eqn:S; cbn [bind] in H; try discriminate. injection H as <- _ _.
  destruct rw; [|apply SetAttributeValue_ro in S as ->; reflexivity]. apply SetAttributeValue_rv in S as [S _]. eapply sub_ok; [|exact S]. reflexivity.
Qed.
Lemma AddObject_rv w rnd s x t o rv h s' : AddObject w rnd s x t o = Ok (rv, h, s') -> inb rv [0; 6; 0x13] = true.
Proof.
  unfold AddObject. destruct (tmpl_token t); intros H; [|injection H as <- _ _; reflexivity]. destruct (AddToSession _ _ _ _ _ _) as [[[c h1] s1]| |]; cbn [bind] in H; try discriminate. injection H as <- _ _. destruct (c =? 0); reflexivity.
Qed.

(** ** Operations *)
Section Op.
Variables (ev : env) (objs : nat -> option keyobj).
Definition ini : list Z := [0; 6; 0x63; 0x70; 0x71; 0x82].
Definition dat : list Z := [0; 6; 0x70; 0x91; 0x150].
Lemma rsa_noparam_rv st m k ty mp i : inb (snd (rsa_noparam st m k ty mp i)) ini = true.
Proof. unfold rsa_noparam. repeat match goal with |- context [if ?c then _ else _] => destruct c end; reflexivity. Qed.
Lemma oaep_init_rv st k ty mp i : inb (snd (oaep_init st k ty mp i)) ini = true.
Proof. unfold oaep_init. destruct (negb _); [reflexivity|]. destruct mp; try reflexivity. destruct (negb _); [reflexivity|]. destruct (SetOaepParams _ _ _) as [[] p]; reflexivity. Qed.
Lemma pss_init_rv st k ty mp i : inb (snd (pss_init st k ty mp i)) ini = true.
Proof. unfold pss_init. destruct (negb _); [reflexivity|]. destruct mp; try reflexivity. destruct (SetPssParams _ _ _) as [[] p]; reflexivity. Qed.
Lemma cbc_init_rv st m k ko mp i : inb (snd (cbc_init ev st m k ko mp i)) ini = true.
Proof. unfold cbc_init. destruct (negb _); [reflexivity|]. destruct mp; try reflexivity. destruct (negb _); [reflexivity|]. destruct (SetCbcParams _ _ _) as [[] p]; reflexivity. Qed.
Lemma gcm_init_rv st k ko mp i st' rv : gcm_init st k ko mp i = Ok (st', rv) -> inb rv ini = true.
Proof.
  unfold gcm_init. destruct (negb _); intros H; [injection H as _ <-; reflexivity|]. destruct mp; try (injection H as _ <-; reflexivity).
  destruct (SetGcmParams _ _ _ _) as [[[] p]| |]; cbn [bind] in H; try discriminate; injection H as _ <-; reflexivity.
Qed.
Lemma hmac_init_rv st h k ko mp i : inb (snd (hmac_init ev st h k ko mp i)) ini = true.
Proof. unfold hmac_init. destruct (negb _); [reflexivity|]. destruct (negb _); [reflexivity|]. cbv zeta. destruct (Hmac_Init _ _ _) as [[] p]; reflexivity. Qed.
Lemma ecdsa_init_rv st k ty mp i : inb (snd (ecdsa_init st k ty mp i)) ini = true.
Proof. unfold ecdsa_init. destruct (negb _); [reflexivity|]. destruct (negb _); reflexivity. Qed.
Ltac ini1 H := first [eapply gcm_init_rv; exact H | injection H as H;
   match type of H with ?p = (_, ?rv) => assert (E : rv = snd p) by (rewrite H; reflexivity); rewrite E; first [apply rsa_noparam_rv|apply oaep_init_rv|apply pss_init_rv|apply cbc_init_rv|apply hmac_init_rv|apply ecdsa_init_rv] end | injection H as _ <-; reflexivity].
Lemma C_EncryptInit_rv st m mp k ko st' rv : C_EncryptInit ev st m mp k ko = Ok (st', rv) -> inb rv ini = true.
Proof. unfold C_EncryptInit. destruct m; intros H; ini1 H. Qed.
Lemma C_DecryptInit_rv st m mp k ko st' rv : C_DecryptInit ev st m mp k ko = Ok (st', rv) -> inb rv ini = true.
Proof. unfold C_DecryptInit. destruct m; intros H; ini1 H. Qed.
Lemma C_SignInit_rv st m mp k ko st' rv : C_SignInit ev st m mp k ko = Ok (st', rv) -> inb rv ini = true.
Proof. unfold C_SignInit. destruct m; intros H; ini1 H. Qed.
Lemma C_VerifyInit_rv st m mp k ko st' rv : C_VerifyInit ev st m mp k ko = Ok (st', rv) -> inb rv ini = true.
Proof. unfold C_VerifyInit. destruct m; intros H; ini1 H. Qed.

Definition oin (l : list Z) (r : res (opst * outc)) : Prop := forall st' o, r = Ok (st', o) -> inb (o_rv o) l = true.
Lemma oin_ok l st o : inb (o_rv o) l = true -> oin l (Ok (st, o)).
Proof. intros H st' o' E. injection E as _ <-. exact H. Qed.
Lemma oin_undef l u : oin l (Undef u).
Proof. intros st' o E. discriminate E. Qed.
Lemma oin_err l e : oin l (Err e).
Proof. intros st' o E. discriminate E. Qed.
Lemma oin_bind {A} l (r : res A) f : (forall a, oin l (f a)) -> oin l (bind r f).
Proof. intros H. destruct r; cbn [bind]; [apply H|apply oin_err|apply oin_undef]. Qed.
Lemma oin_sized l st n b k : sub [0; 0x150] l = true -> oin l k -> oin l (sized st n b k).
Proof. intros S H. unfold sized. destruct b; [apply oin_ok; eapply sub_ok; [exact S|reflexivity]|]. destruct (_ <? _); [apply oin_ok; eapply sub_ok; [exact S|reflexivity]|exact H]. Qed.
Lemma oin_concl l b st r : sub [0; 6] l = true -> oin l (conclude b st r).
Proof. intros S. unfold conclude. destruct r as [[[st' n] o]| |]; [apply oin_ok; eapply sub_ok; [exact S|reflexivity]..|apply oin_undef]. Qed.
Lemma oin_obj l st b f : sub [0x91] l = true -> (forall k, oin l (f k)) -> oin l (with_obj st b f).
Proof. intros S H. unfold with_obj. destruct (os_curr st); [apply H|]. apply oin_ok. eapply sub_ok; [exact S|reflexivity]. Qed.
Lemma oin_need l st i b f : sub [0x91] l = true -> oin l f -> oin l (need_init st i b f).
Proof. intros S H. unfold need_init. destruct (_ =? _); [exact H|]. apply oin_ok. eapply sub_ok; [exact S|reflexivity]. Qed.
Ltac o1 := first [apply oin_sized; [reflexivity|] | apply oin_concl; reflexivity | apply oin_obj; [reflexivity|intros ?k] | apply oin_need; [reflexivity|]
  | apply oin_bind; intros ?a | apply oin_ok; reflexivity | apply oin_undef | apply oin_err
  | match goal with
    | |- oin _ (if ?c then _ else _) => destruct c
    | |- oin _ (let '(_, _) := ?c in _) => destruct c
    | |- oin _ (match ?c with _ => _ end) => destruct c
    | |- oin _ (let x := _ in _) => cbv zeta
    end].
Lemma C_Encrypt_rv st r d b : oin dat (C_Encrypt ev objs st r d b).
Proof. unfold C_Encrypt, pk_crypt. repeat o1. Qed.
Lemma C_EncryptUpdate_rv st d b : oin dat (C_EncryptUpdate ev objs st d b).
Proof. unfold C_EncryptUpdate. repeat o1. Qed.
Lemma C_EncryptFinal_rv st b : oin (dat ++ [0x21]) (C_EncryptFinal ev st b).
Proof. unfold C_EncryptFinal. repeat o1. Qed.
Lemma C_Decrypt_rv st r d b : oin dat (C_Decrypt ev objs st r d b).
Proof. unfold C_Decrypt, pk_crypt. repeat o1. Qed.
Lemma C_DecryptUpdate_rv st d b : oin dat (C_DecryptUpdate ev st d b).
Proof. unfold C_DecryptUpdate. repeat o1. Qed.
Lemma C_DecryptFinal_rv st b : oin (dat ++ [0x21]) (C_DecryptFinal ev objs st b).
Proof. unfold C_DecryptFinal. repeat o1. Qed.
Lemma C_Sign_rv st r d b : oin dat (C_Sign ev objs st r d b).
Proof. unfold C_Sign, pk_sign. repeat o1. Qed.
Lemma C_SignUpdate_rv st d : oin [0; 0x70; 0x91] (C_SignUpdate ev st d).
Proof. unfold C_SignUpdate, hmac_update. repeat o1. Qed.
Lemma C_SignFinal_rv st b : oin [0; 0x70; 0x91; 0x150] (C_SignFinal ev st b).
Proof. unfold C_SignFinal. repeat o1. Qed.
Lemma C_Verify_rv st d g : oin [0; 6; 0x70; 0x91; 0xC0] (C_Verify ev objs st d g).
Proof. unfold C_Verify, pk_verify, verdict. repeat o1; apply oin_ok; cbn [o_rv]; match goal with |- inb (if ?c then _ else _) _ = _ => destruct c; reflexivity end. Qed.
Lemma C_VerifyUpdate_rv st d : oin [0; 0x70; 0x91] (C_VerifyUpdate ev st d).
Proof. unfold C_VerifyUpdate, hmac_update. repeat o1. Qed.
Lemma C_VerifyFinal_rv st g : oin [0; 0x70; 0x91; 0xC0] (C_VerifyFinal ev st g).
Proof. unfold C_VerifyFinal, verdict. repeat o1. apply oin_ok; cbn [o_rv]; match goal with |- inb (if ?c then _ else _) _ = _ => destruct c; reflexivity end. Qed.
Definition op_rvs (c : Ops.call) : list Z :=
  match c with
  | KEncryptInit _ _ _ | KDecryptInit _ _ _ | KSignInit _ _ _ | KVerifyInit _ _ _ => ini
  | KEncrypt _ _ _ | KEncryptUpdate _ _ | KDecrypt _ _ _ | KDecryptUpdate _ _ | KSign _ _ _ => dat
  | KEncryptFinal _ | KDecryptFinal _ => dat ++ [0x21]
  | KSignUpdate _ | KVerifyUpdate _ => [0; 0x70; 0x91]
  | KSignFinal _ => [0; 0x70; 0x91; 0x150]
  | KVerify _ _ => [0; 6; 0x70; 0x91; 0xC0]
  | KVerifyFinal _ => [0; 0x70; 0x91; 0xC0]
  | KReopen => [0]
  end.
Lemma init_call_rv f st m mp k : (forall ko st' rv, f st m mp k ko = Ok (st', rv) -> inb rv ini = true) -> oin ini (init_call objs f st m mp k).
Proof. intros H st' o. unfold init_call. destruct (objs k) as [ko|]; intros E; [|injection E as _ <-; reflexivity]. destruct (f st m mp k ko) as [[st1 rv]| |] eqn:F; cbn [bind] in E; try discriminate. injection E as _ <-. exact (H _ _ _ F). Qed.
Lemma Ops_rv st c : oin (op_rvs c) (Ops.step ev objs st c).
Proof.
  destruct c; cbn [Ops.step op_rvs].
  - apply init_call_rv. intros. eapply C_EncryptInit_rv; eassumption.
  - apply init_call_rv. intros. eapply C_DecryptInit_rv; eassumption.
  - apply init_call_rv. intros. eapply C_SignInit_rv; eassumption.
  - apply init_call_rv. intros. eapply C_VerifyInit_rv; eassumption.
  - apply C_Encrypt_rv. - apply C_EncryptUpdate_rv. - apply C_EncryptFinal_rv.
  - apply C_Decrypt_rv. - apply C_DecryptUpdate_rv. - apply C_DecryptFinal_rv.
  - apply C_Sign_rv. - apply C_SignUpdate_rv. - apply C_SignFinal_rv.
  - apply C_Verify_rv. - apply C_VerifyUpdate_rv. - apply C_VerifyFinal_rv.
  - apply oin_bind. intros a. apply oin_ok. reflexivity.
Qed.
End Op.

(** ** The calls *)
Section World.
Variable w : world.
Definition rin (l : list Z) (r : res (sys * out)) : Prop := forall s o, r = Ok (s, o) -> inb (out_rv o) l = true.
Lemma rin_ok l s o : inb (out_rv o) l = true -> rin l (Ok (s, o)).
Proof. intros H s' o' E. injection E as _ <-. exact H. Qed.
Lemma rin_rv l s r : inb r l = true -> rin l (rv_ s r).
Proof. intros H. apply rin_ok. exact H. Qed.
Lemma rin_bind {A} l (r : res A) f : (forall a, r = Ok a -> rin l (f a)) -> rin l (bind r f).
Proof. intros H. destruct r; cbn [bind]; [apply H; reflexivity|intros s o E; discriminate E..]. Qed.
Lemma rin_undef l u : rin l (Undef u).
Proof. intros st' o E. discriminate E. Qed.
Lemma rin_lib l s k : inb 0x190 l = true -> rin l k -> rin l (need_lib s k).
Proof. intros S H. unfold need_lib. destruct (0 <? s_count s); [exact H|apply rin_rv; exact S]. Qed.
Lemma rin_slot l s n k : inb 0x190 l = true -> inb 3 l = true -> rin l k -> rin l (with_slot s n k).
Proof. intros S T H. unfold with_slot. apply rin_lib; [exact S|]. destruct (slot_ok n); [exact H|apply rin_rv; exact T]. Qed.
Lemma rin_sess l s h k : inb 0x190 l = true -> inb 0xB3 l = true -> (forall x, rin l (k x)) -> rin l (with_sess s h k).
Proof. intros S T H. unfold with_sess. apply rin_lib; [exact S|]. destruct (sess_get s h); [apply H|apply rin_rv; exact T]. Qed.
Lemma rin_rw l s x k : inb 0xB5 l = true -> (is_rw x = true -> rin l k) -> rin l (need_rw s x k).
Proof. intros S H. unfold need_rw. destruct (is_rw x); [apply H; reflexivity|apply rin_rv; exact S]. Qed.
Lemma rin_obj l s x h e k : inb e l = true -> (forall o, rin l (k o)) -> rin l (with_object s x h e k).
Proof. intros S H. unfold with_object. destruct (find_obj s x h); [apply H|apply rin_rv; exact S]. Qed.
Lemma rin_sub a b r : sub a b = true -> rin a r -> rin b r.
Proof. intros S H s o E. eapply sub_ok; [exact S|exact (H s o E)]. Qed.
Ltac r1 := first [apply rin_ok; reflexivity | apply rin_rv; reflexivity | apply rin_undef | apply rin_bind; intros ?a ?E
  | match goal with
    | |- rin _ (let x := _ in _) => cbv zeta
    | |- rin _ (if ?c then _ else _) => destruct c eqn:?
    | |- rin _ (let '(_, _) := ?c in _) => destruct c eqn:?
    | |- rin _ (match ?c with _ => _ end) => destruct c eqn:?
    | |- rin _ (rv_ _ (if ?c then _ else _)) => destruct c eqn:?
    end].

Lemma run_init_rv s x c o x1 r : run_init w s x c o = Ok (x1, r) -> inb (o_rv r) (op_rvs c) = true.
Proof. unfold run_init. destruct (view w o); cbn [bind]; try discriminate. destruct (Ops.step _ _ _ _) as [[p q]| |] eqn:E; cbn [bind]; try discriminate. intros H. injection H as _ <-. exact (Ops_rv _ _ _ _ _ _ E). Qed.
Lemma run_cont_rv s x c x1 r : run_cont w s x c = Ok (x1, r) -> inb (o_rv r) (op_rvs c) = true.
Proof. unfold run_cont. match goal with |- bind ?k _ = _ -> _ => destruct k end; cbn [bind]; try discriminate. destruct (Ops.step _ _ _ _) as [[p q]| |] eqn:E; cbn [bind]; try discriminate. intros H. injection H as _ <-. exact (Ops_rv _ _ _ _ _ _ E). Qed.

Lemma Create_rv rnd s x t : rin (set_ ++ [0xB5; 0xD0]) (Create w rnd s x t).
Proof.
  unfold Create. apply rin_bind. intros [rv o] E. apply CreateObject_rv in E. cbv zeta. destruct o; [|apply rin_rv; exact E].
  apply rin_bind. intros [[rv2 h] s2] A. apply AddObject_rv in A. apply rin_ok. eapply sub_ok; [|exact A]. reflexivity.
Qed.
Lemma Copy_rv rnd s x o t : rin (set_ ++ [0x82; 0xB5; UNAVAILABLE]) (Copy w rnd s x o t).
Proof.
  unfold Copy. apply rin_bind. intros [[rv t1] r] E. apply CopyObject_rv in E. cbv zeta. destruct r as [[b o1]|]; [|apply rin_rv; exact E].
  apply rin_bind. intros [[rv2 h] s2] A. apply rin_ok. cbn [out_rv]. destruct (rv2 =? 0); reflexivity.
Qed.
Lemma GenKey_rv rnd s x t k : rin (set_ ++ [0xB5]) (GenKey w rnd s x t k).
Proof.
  unfold GenKey. apply rin_bind. intros [rv o] E. apply NewObject_rv in E as [E _]; [|left; reflexivity]. cbv zeta. destruct o; [|apply rin_rv; exact E].
  apply rin_bind. intros [l b] _. destruct (zlen b <? l); [apply rin_undef|]. apply rin_bind. intros [[rv2 h] s2] A. apply AddObject_rv in A. apply rin_ok. eapply sub_ok; [|exact A]. reflexivity.
Qed.
Lemma GenKeyPair_rv rnd s x m tp tq g : rin (set_ ++ [0x70; 0xB3; 0xB5]) (GenKeyPair w rnd s x m tp tq g).
Proof.
  unfold GenKeyPair. destruct (match m with KP_RSA => Some CKK_RSA | KP_EC => Some CKK_EC | KP_DH => Some CKK_DH | KP_other => None end) as [ty|] eqn:T; [|apply rin_rv; reflexivity].
  assert (K : inb ty kinds = true) by (destruct m; injection T as <- || discriminate T; reflexivity).
  apply rin_bind. intros [rv o] E. apply NewObject_rv in E as [E _]; [|left; exact K]. cbv zeta. destruct o; [|apply rin_rv; eapply sub_ok; [|exact E]; reflexivity].
  apply rin_bind. intros [rv2 o2] E2. apply NewObject_rv in E2 as [E2 _]; [|left; exact K]. destruct o2; [|apply rin_rv; eapply sub_ok; [|exact E2]; reflexivity].
  apply rin_bind. intros [[pub1 priv1]|] _; [|apply rin_rv; reflexivity]. apply rin_bind. intros [[rv3 h1] s2] A. apply AddObject_rv in A.
  destruct (negb (rv3 =? CKR_OK)); [apply rin_rv; eapply sub_ok; [|exact A]; reflexivity|]. destruct (sess_get s2 (ss_h x)); [|apply rin_rv; reflexivity].
  apply rin_bind. intros [[rv4 h2] s3] _. destruct (rv4 =? CKR_OK); [apply rin_ok; reflexivity|apply rin_undef].
Qed.
(** A key that is an AES key is initialised or its parameter is refused; then the data is
    processed. *)
Lemma init_pad_enc ev objs st mp u ko st' r : objs u = Some ko -> ko_type ko = CKK_AES -> Ops.step ev objs st (KEncryptInit M_AES_CBC_PAD mp u) = Ok (st', r) ->
  inb (o_rv r) [0; 6; 0x71] = true /\ (o_rv r = CKR_OK -> os_curr st' = Some u /\ os_mech st' = M_AES_CBC_PAD /\ os_init st' = INIT_AES_CBC_PAD_ENC).
Proof.
  intros K T. cbn [Ops.step]. unfold init_call. rewrite K. unfold C_EncryptInit. cbn [bind]. unfold cbc_init. rewrite T, Z.eqb_refl. cbn [negb].
  destruct mp; try (cbn [bind]; intros H; injection H as <- <-; split; [reflexivity|discriminate]).
  destruct (negb _); [cbn [bind]; intros H; injection H as <- <-; split; [reflexivity|discriminate]|].
  destruct (SetCbcParams _ _ _) as [[] p]; cbn [bind]; intros H; injection H as <- <-; (split; [reflexivity|]); [intros _; repeat split|discriminate].
Qed.
Lemma init_pad_dec ev objs st mp u ko st' r : objs u = Some ko -> ko_type ko = CKK_AES -> Ops.step ev objs st (KDecryptInit M_AES_CBC_PAD mp u) = Ok (st', r) ->
  inb (o_rv r) [0; 6; 0x71] = true /\ (o_rv r = CKR_OK -> os_curr st' = Some u /\ os_mech st' = M_AES_CBC_PAD /\ os_init st' = INIT_AES_CBC_PAD_DEC).
Proof.
  intros K T. cbn [Ops.step]. unfold init_call. rewrite K. unfold C_DecryptInit. cbn [bind]. unfold cbc_init. rewrite T, Z.eqb_refl. cbn [negb].
  destruct mp; try (cbn [bind]; intros H; injection H as <- <-; split; [reflexivity|discriminate]).
  destruct (negb _); [cbn [bind]; intros H; injection H as <- <-; split; [reflexivity|discriminate]|].
  destruct (SetCbcParams _ _ _) as [[] p]; cbn [bind]; intros H; injection H as <- <-; (split; [reflexivity|]); [intros _; repeat split|discriminate].
Qed.
Lemma enc_pad ev objs st u d b r : os_curr st = Some u -> os_mech st = M_AES_CBC_PAD -> os_init st = INIT_AES_CBC_PAD_ENC -> oin [0; 6; 0x150] (C_Encrypt ev objs st r d b).
Proof.
  intros C M I. unfold C_Encrypt, with_obj. rewrite C, M. unfold need_init. rewrite I, Z.eqb_refl. apply oin_sized; [reflexivity|]. apply oin_bind. intros a. apply oin_concl. reflexivity.
Qed.
Lemma dec_pad ev objs st u d n r : os_curr st = Some u -> os_mech st = M_AES_CBC_PAD -> os_init st = INIT_AES_CBC_PAD_DEC -> oin [0; 6] (C_Decrypt ev objs st r d (Buf n)).
Proof.
  intros C M I. unfold C_Decrypt, with_obj. rewrite C, M. unfold need_init. rewrite I, Z.eqb_refl. apply oin_bind. intros a. apply oin_concl. reflexivity.
Qed.
Lemma view_type o ko : view w o = Ok ko -> ko_type ko = o_type o.
Proof.
  unfold view. destruct (o_type o =? CKK_RSA); [destruct (as_rsa o); cbn [bind]; intros H; try discriminate; injection H as <-; reflexivity|].
  destruct (o_type o =? CKK_EC); [destruct (as_ec o); cbn [bind]; intros H; try discriminate; injection H as <-; reflexivity|].
  destruct (is_sym o); [destruct (as_sym o) as [[l b]| |]; cbn [bind]; try discriminate; destruct (take_buf l b); cbn [bind]; intros H; try discriminate; injection H as <-; reflexivity|].
  intros H; injection H as <-; reflexivity.
Qed.
Lemma Wrap_rv s x m mp wk k b : rin [0; 6; 0x69; 0x70; 0x71; 0x115; 0x150] (Wrap w s x m mp wk k b).
Proof.
  unfold Wrap. destruct (negb (wrappable _ _)); [apply rin_rv; reflexivity|]. apply rin_bind. intros r _. destruct (w_p8 w r) as [c der]. destruct (negb (c =? 0)); [apply rin_rv; reflexivity|].
  destruct m; cbn [is_cbc_pad negb]; try (apply rin_rv; reflexivity). destruct (Z.eqb_spec (o_type wk) CKK_AES) as [T|T]; cbn [negb]; [|apply rin_rv; reflexivity].
  apply rin_bind. intros [x1 o1] E1. unfold run_init in E1. destruct (view w wk) as [ko| |] eqn:V; cbn [bind] in E1; try discriminate. apply view_type in V.
  destruct (Ops.step _ _ _ _) as [[p q]| |] eqn:P; cbn [bind] in E1; try discriminate. injection E1 as <- <-.
  eapply (init_pad_enc _ _ _ _ _ ko) in P; [|cbv beta; rewrite Nat.eqb_refl; reflexivity|congruence]. destruct P as [R Z]. destruct (Z.eqb_spec (o_rv q) CKR_OK) as [Q|Q]; cbn [negb]; [|apply rin_rv; eapply sub_ok; [|exact R]; reflexivity].
  destruct (Z Q) as (C & M & I). apply rin_bind. intros [x2 o2] E2. unfold run_cont in E2. match type of E2 with bind ?z _ = _ => destruct z as [kk| |] end; cbn [bind] in E2; try discriminate.
  destruct (Ops.step _ _ (ss_op (set_op x p)) _) as [[p2 q2]| |] eqn:P2; cbn [bind] in E2; try discriminate. injection E2 as <- <-. apply rin_ok. cbn [out_rv].
  eapply sub_ok; [|eapply enc_pad; [exact C|exact M|exact I|exact P2]]. reflexivity.
Qed.
Lemma Unwrap_rv rnd s x m mp uk wr t : rin (set_ ++ [0x69; 0x70; 0x71; 0xB5; 0xD0; 0xF2; 0x110] ) (Unwrap w rnd s x m mp uk wr t) .
Proof.
  unfold Unwrap. destruct m; cbn [is_cbc_pad negb]; try (apply rin_rv; reflexivity). cbv beta zeta.
  destruct (find_last t CKA_KEY_TYPE) as [a1|]; [|apply rin_rv; reflexivity]. destruct (tmpl_ulong a1) as [kt|]; [|apply rin_rv; reflexivity]. destruct (negb (mem kt _)); [apply rin_rv; reflexivity|].
  destruct (find_last t CKA_CLASS) as [a2|]; [|apply rin_rv; reflexivity]. destruct (tmpl_ulong a2) as [cls|]; [|apply rin_rv; reflexivity]. destruct (negb (mem cls _)); [apply rin_rv; reflexivity|].
  destruct (negb (wrappable _ _)); [apply rin_rv; reflexivity|]. destruct (Z.eqb_spec (o_type uk) CKK_AES) as [T|T]; cbn [negb]; [|apply rin_rv; reflexivity].
  apply rin_bind. intros [x1 o1] E1. unfold run_init in E1. destruct (view w uk) as [ko| |] eqn:V; cbn [bind] in E1; try discriminate. apply view_type in V.
  destruct (Ops.step _ _ _ _) as [[p q]| |] eqn:P; cbn [bind] in E1; try discriminate. injection E1 as <- <-.
  eapply (init_pad_dec _ _ _ _ _ ko) in P; [|cbv beta; rewrite Nat.eqb_refl; reflexivity|congruence]. destruct P as [R Z]. destruct (Z.eqb_spec (o_rv q) CKR_OK) as [Q|Q]; cbn [negb]; [|apply rin_rv; eapply sub_ok; [|exact R]; reflexivity].
  destruct (Z Q) as (C & M & I). apply rin_bind. intros [x2 o2] E2. unfold run_cont in E2. match type of E2 with bind ?z _ = _ => destruct z as [kk| |] end; cbn [bind] in E2; try discriminate.
  destruct (Ops.step _ _ (ss_op (set_op x p)) _) as [[p2 q2]| |] eqn:P2; cbn [bind] in E2; try discriminate. injection E2 as <- <-. cbv zeta.
  pose proof (dec_pad _ _ _ _ _ _ _ C M I _ _ P2) as R2. destruct (negb (o_rv q2 =? CKR_OK)); [apply rin_rv; eapply sub_ok; [|exact R2]; reflexivity|].
  apply rin_bind. intros [rv o] N. apply NewObject_rv in N as [N _]; [|left; reflexivity]. destruct o as [o|]; [|apply rin_rv; eapply sub_ok; [|exact N]; reflexivity].
  destruct (w_p8_dec w (o_out q2)) as [c r]. destruct (negb (c =? 0)); [apply rin_rv; reflexivity|]. apply rin_bind. intros [[rv2 h] s4] A. apply AddObject_rv in A. apply rin_ok. eapply sub_ok; [|exact A]. reflexivity.
Qed.
Lemma Derive_rv rnd s x m b sec t : rin (set_ ++ [0x70; 0xB5; 0xD0]) (Derive w rnd s x m b sec t).
Proof.
  unfold Derive. assert (K : forall (u : res unit), rin (set_ ++ [0x70; 0xB5; 0xD0]) (_ <- u ;; match sec with None => rv_ s CKR_FUNCTION_FAILED | Some sec =>
    '(rv, o) <- CreateObject (w_oe w) (is_rw x) (s_uid s) t ;; let s1 := bump s 1 in
          match o with
          | None => rv_ s1 rv
          | Some o =>
              '(c, _, d) <- GetAttr (w_oe w) o CKA_VALUE_LEN (Some 8%Z) ;;
              if negb (c =? 0)%Z then rv_ s1 CKR_OK else
              let vl := u32 (ulong_of d) in
              let sl := if andb (0 <? vl)%Z (vl <=? zlen sec)%Z then vl else zlen sec in
              if (sl <? zlen sec)%Z then Undef UB_read_overflow else
              '(c2, o1) <- SetSecretKey o [None; Some sec] ;;
              if negb (c2 =? 0)%Z then rv_ s1 CKR_FUNCTION_FAILED else
              '(rv2, h, s2) <- AddObject w rnd s1 x t o1 ;; Ok (s2, OutH rv2 h)
          end end)).
  { intros u. apply rin_bind. intros _ _. destruct sec as [sec|]; [|apply rin_rv; reflexivity]. apply rin_bind. intros [rv o] C. apply CreateObject_rv in C. cbv zeta.
    destruct o as [o|]; [|apply rin_rv; eapply sub_ok; [|exact C]; reflexivity]. apply rin_bind. intros [[c l] d] _. destruct (negb (c =? 0)); [apply rin_rv; reflexivity|].
    match goal with |- rin _ (if ?b then _ else _) => destruct b end; [apply rin_undef|]. apply rin_bind. intros [c2 o1] _. destruct (negb (c2 =? 0)); [apply rin_rv; reflexivity|].
    apply rin_bind. intros [[rv2 h] s2] A. apply AddObject_rv in A. apply rin_ok. eapply sub_ok; [|exact A]. reflexivity. }
  destruct m; [apply K|apply K|apply rin_rv; reflexivity].
Qed.
Lemma OCrypto_rv rnd s h c hk : rin (S_ ++ op_rvs c ++ match with_key c 0 with Some _ => [7; 0x82] | None => [7] end) (step w rnd s (OCrypto h c hk)).
Proof.
  cbn [step]. apply rin_sess; [reflexivity..|]. intros x. destruct (with_key c 0) as [c0|] eqn:K0.
  - apply rin_obj; [destruct c; try discriminate K0; reflexivity|]. intros o. destruct (with_key c (o_uid o)) as [c1|] eqn:K; [|destruct c; discriminate].
    apply rin_bind. intros [x1 r] R. apply run_init_rv in R. apply rin_ok. destruct c; try discriminate K; injection K as <-; (eapply sub_ok; [|exact R]; reflexivity).
  - destruct c; try discriminate K0; try (apply rin_bind; intros [x1 r] R; apply run_cont_rv in R; apply rin_ok; eapply sub_ok; [|exact R]; reflexivity). apply rin_rv. reflexivity.
Qed.

(** ** The interface *)
Definition ain (l : list Z) (r : res (sys * aout)) : Prop := forall s o, r = Ok (s, o) -> inb (a_rv o) l = true.
Lemma ain_ok l s o : inb (a_rv o) l = true -> ain l (Ok (s, o)).
Proof. intros H s' o' E. injection E as _ <-. exact H. Qed.
Lemma ain_ans l s r : inb r l = true -> ain l (ans s r).
Proof. intros H. apply ain_ok. exact H. Qed.
Lemma ain_call l rnd s c : rin l (step w rnd s c) -> ain l (call w rnd s c).
Proof. intros H s1 o1. unfold call. destruct (step w rnd s c) as [[s2 o2]| |] eqn:E; cbn [bind]; intros X; try discriminate. injection X as _ <-. exact (H _ _ eq_refl). Qed.
Lemma ain_lib l s k : inb 0x190 l = true -> ain l k -> ain l (lib s k).
Proof. intros S H. unfold lib. destruct (0 <? s_count s); [exact H|apply ain_ans; exact S]. Qed.
Lemma ain_slot l s n k : inb 0x190 l = true -> inb 3 l = true -> ain l k -> ain l (slotc s n k).
Proof. intros S T H. unfold slotc. apply ain_lib; [exact S|]. destruct (slot_ok n); [exact H|apply ain_ans; exact T]. Qed.
Lemma ain_sess l s h k : inb 0x190 l = true -> inb 0xB3 l = true -> (forall x, ain l (k x)) -> ain l (sessc s h k).
Proof. intros S T H. unfold sessc. apply ain_lib; [exact S|]. destruct (sess_get s h); [apply H|apply ain_ans; exact T]. Qed.
Lemma ain_need {A} l s (p : ptr A) k : inb 7 l = true -> (forall a, ain l (k a)) -> ain l (need s p k).
Proof. intros S H. unfold need. destruct p; [apply ain_ans; exact S|apply H]. Qed.
Lemma ain_some l s p k : inb 7 l = true -> (forall a, ain l (k a)) -> ain l (need_some s p k).
Proof. intros S H. unfold need_some. apply ain_need; [exact S|]. intros b. destruct (zlen b =? 0); [apply ain_ans; exact S|apply H]. Qed.
Lemma ain_rw l s x k : inb 0xB5 l = true -> ain l k -> ain l (rwc s x k).
Proof. intros S H. unfold rwc. destruct (is_rw x); [exact H|apply ain_ans; exact S]. Qed.
Lemma ain_obj l s x h e k : inb e l = true -> (forall o, ain l (k o)) -> ain l (objc s x h e k).
Proof. intros S H. unfold objc. destruct (find_obj s x h); [apply H|apply ain_ans; exact S]. Qed.
Ltac s1 := first [apply rin_slot; [reflexivity..|] | apply rin_sess; [reflexivity..|intros ?x] | apply rin_rw; [reflexivity|intros ?] | apply rin_obj; [reflexivity|intros ?o]
  | eapply rin_sub; [|first [apply OCrypto_rv|apply Create_rv|apply Copy_rv|apply GenKey_rv|apply GenKeyPair_rv|apply Wrap_rv|apply Unwrap_rv|apply Derive_rv]]; reflexivity | r1].
Ltac a1 := first [apply ain_ok; reflexivity | apply ain_ans; reflexivity | apply ain_call | apply ain_slot; [reflexivity..|] | apply ain_sess; [reflexivity..|intros ?x]
  | apply ain_lib; [reflexivity|] | apply ain_need; [reflexivity|intros ?a] | apply ain_some; [reflexivity|intros ?a] | apply ain_rw; [reflexivity|] | apply ain_obj; [reflexivity|intros ?o]
  | match goal with
    | |- ain _ (let x := _ in _) => cbv zeta
    | |- ain _ (if ?c then _ else _) => destruct c
    | |- ain _ (let '(_, _) := ?c in _) => destruct c
    | |- ain _ (match ?c with _ => _ end) => destruct c
    | |- ain _ (ans _ (if ?c then _ else _)) => destruct c
    end].
Lemma Login_rv s ut pin now : rin [0; 0x91; 0xA0; 0xB7; 0x100; 0x102; 0x103] (Login w s ut pin now).
Proof.
  assert (L : forall b c, inb (login_rv b c) [0; 0x91; 0xA0; 0xB7; 0x100; 0x102; 0x103] = true).
  { intros b c. unfold login_rv. repeat match goal with |- context [if ?c then _ else _] => destruct c end; reflexivity. }
  unfold Login. destruct (negb _); [apply rin_rv; reflexivity|]. destruct (ut =? CKU_SO); [destruct (SOLogin _ _ _ _ _) as [c t]; apply rin_rv, L|].
  destruct (ut =? CKU_USER); [apply rin_bind; intros [c t] _; apply rin_rv, L|]. destruct (ut =? CKU_CONTEXT_SPECIFIC); apply rin_rv; reflexivity.
Qed.
Lemma FindInit_rv s x t : rin [0; 0x13; 0x90] (FindInit w s x t).
Proof. unfold FindInit. cbv zeta. repeat r1. Qed.
Lemma OpenSession_rv s f : rin [0; 0xB1; 0xB4; 0xB8] (OpenSession s f).
Proof. unfold OpenSession. cbv zeta. destruct (_ =? 0); [apply rin_rv; reflexivity|]. destruct (andb _ _); [apply rin_rv; reflexivity|]. destruct (first_unused _); [apply rin_ok; reflexivity|]. match goal with |- rin _ (if ?c then _ else _) => destruct c end; [apply rin_rv|apply rin_ok]; reflexivity. Qed.
(** Answers the functions' texts name but that no reachable state gives: see AnswersProofs2.v. *)
Definition spare : list (string * Z) := [("C_InitToken", 6); ("C_EncryptFinal", 6); ("C_DecryptUpdate", 6); ("C_GenerateKey", 0x31)].
Definition loose (n : string) : list Z := look answers n ++ map snd (filter (fun p => String.eqb (fst p) n) spare).
Theorem answers_loose rnd s c : ain (loose (name c)) (exec w rnd s c).
Proof.
  destruct c; cbn [exec name]; match goal with |- ain ?l _ => let v := eval vm_compute in l in change l with v end; repeat a1.
  all: try (eapply rin_sub; [|apply OCrypto_rv]; reflexivity).
  all: cbn [step]; repeat s1.
  all: try (unfold Initialize, Finalize, InitToken, TokenReset, InitPIN, SetPIN; cbv zeta; repeat r1; fail).
  all: try (eapply rin_sub; [|first [apply Login_rv|apply FindInit_rv|apply OpenSession_rv]]; reflexivity).
  - apply ain_ok. cbn [a_rv]. unfold C_GetSlotList. destruct (lbuf list a); [reflexivity|]. match goal with |- context [if ?c then _ else _] => destruct c end; reflexivity.
  - apply ain_ok. cbn [a_rv]. unfold C_GetMechanismList. destruct (lbuf list a); [reflexivity|]. match goal with |- context [if ?c then _ else _] => destruct c end; reflexivity.
  - apply ain_ok. cbn [a_rv]. unfold C_GetMechanismInfo. cbv zeta. repeat (match goal with |- context [if ?c then _ else _] => destruct c end; [reflexivity|]). reflexivity.
  - apply rin_ok. match goal with E : GetAttributeValue _ _ _ = _ |- _ => apply GetAttributeValue_rv in E; eapply sub_ok; [|exact E] end. reflexivity.
  - apply rin_rv. match goal with E : SetAttributeValue _ (is_rw ?x) _ _ = _, R : is_rw ?x = true |- _ => rewrite R in E; apply SetAttributeValue_rv in E as [E _]; eapply sub_ok; [|exact E] end. reflexivity.
Qed.
End World.
