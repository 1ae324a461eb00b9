(** C110: attributes change only by C_SetAttributeValue, and not all of them; protection
    can be taken back. C111: what CKA_LOCAL and CKA_KEY_GEN_MECHANISM say of a key. *)
From Verif Require Import Base Ops Object ObjectProofs Store Sys SysProofs SysProofs2 SysProofs3 SysProofs4 ObjFrame IsolateProofs2 AttrFrame AttrProofs2 PropObject ToyEnv ToySys.

(** ** The attributes an object has beside its key *)
Inductive field := FClass | FId | FLabel | FStart | FEnd | FBit (prot : bool) (i : Z).
Definition same (f : field) (o o' : obj) : Prop :=
  match f with
  | FClass => o_class o' = o_class o
  | FId => o_keyId o' = o_keyId o
  | FLabel => o_label o' = o_label o
  | FStart => o_start o' = o_start o
  | FEnd => o_end o' = o_end o
  | FBit true i => Z.testbit (o_flag o') i = Z.testbit (o_flag o) i
  | FBit false i => Z.testbit (o_opFlag o') i = Z.testbit (o_opFlag o) i
  end.
(** Which attribute is kept where (pkcs11.h, internal.h 102-110). CKA_UNWRAP has its own
    bit, 18, in the table of flags; the code uses that of CKA_WRAP. *)
Definition kept_in : list (Z * field) :=
  [ (CKA_CLASS, FClass); (CKA_ID, FId); (CKA_LABEL, FLabel); (CKA_START_DATE, FStart); (CKA_END_DATE, FEnd);
    (CKA_PRIVATE, FBit true 0); (CKA_SENSITIVE, FBit true 1); (CKA_EXTRACTABLE, FBit true 2); (CKA_MODIFIABLE, FBit true 3);
    (CKA_ALWAYS_SENSITIVE, FBit true 4); (CKA_NEVER_EXTRACTABLE, FBit true 5); (CKA_ALWAYS_AUTHENTICATE, FBit true 6);
    (CKA_WRAP_WITH_TRUSTED, FBit true 7); (CKA_TRUSTED, FBit true 8);
    (CKA_ENCRYPT, FBit false 8); (CKA_DECRYPT, FBit false 9); (CKA_SIGN, FBit false 11); (CKA_SIGN_RECOVER, FBit false 12);
    (CKA_VERIFY, FBit false 13); (CKA_VERIFY_RECOVER, FBit false 14); (CKA_WRAP, FBit false 17); (CKA_UNWRAP, FBit false 17);
    (CKA_DERIVE, FBit false 19) ]%Z.

Lemma same_refl f o : same f o o.
Proof. destruct f as [| | | | |[|] i]; reflexivity. Qed.
Lemma same_trans f a b c : same f a b -> same f b c -> same f a c.
Proof. destruct f as [| | | | |[|] i]; cbn; congruence. Qed.
Lemma face_same f o o' : face o' = face o -> same f o o'.
Proof.
  intros E. destruct f as [| | | | |[|] i]; cbn; [exact (f_equal o_class E)|exact (f_equal o_keyId E)|exact (f_equal o_label E)|exact (f_equal o_start E)|exact (f_equal o_end E)| |].
  - exact (f_equal (fun o => Z.testbit (o_flag o) i) E).
  - exact (f_equal (fun o => Z.testbit (o_opFlag o) i) E).
Qed.
Definition free_of (f : field) (t : template) : Prop := forall ty, In (ty, f) kept_in -> ~ In ty (map a_type t).

Lemma opflag_kept ty m : set_opflag_of ty = Some m -> exists i, m = (2^i)%Z /\ (0 <= i)%Z /\ In (ty, FBit false i) kept_in.
Proof.
  unfold set_opflag_of. intros Q.
  repeat match type of Q with (if (?x =? ?y)%Z then _ else _) = _ => let E := fresh "E" in destruct (Z.eqb_spec x y) as [E|E]; [injection Q as <-; rewrite E|] end; try discriminate Q;
  [exists 9%Z|exists 8%Z|exists 11%Z|exists 13%Z|exists 12%Z|exists 14%Z|exists 17%Z|exists 17%Z|exists 19%Z]; (split; [reflexivity|split; [lia|cbn; tauto]]).
Qed.
Lemma flag_kept ty m : set_flag_of ty = Some m -> exists i, m = (2^i)%Z /\ (0 <= i)%Z /\ In (ty, FBit true i) kept_in.
Proof.
  unfold set_flag_of. intros Q.
  repeat match type of Q with (if (?x =? ?y)%Z then _ else _) = _ => let E := fresh "E" in destruct (Z.eqb_spec x y) as [E|E]; [injection Q as <-; rewrite E|] end; try discriminate Q;
  [exists 0%Z|exists 1%Z|exists 2%Z|exists 3%Z|exists 4%Z|exists 5%Z|exists 6%Z|exists 7%Z|exists 8%Z]; (split; [reflexivity|split; [lia|cbn; tauto]]).
Qed.
Lemma put_flag_other fl i j b : (0 <= i)%Z -> j <> i -> Z.testbit (put_flag fl (2^i) b) j = Z.testbit fl j.
Proof.
  intros I N. destruct (Z.ltb_spec j 0) as [L|L]; [rewrite !Z.testbit_neg_r by exact L; reflexivity|].
  rewrite put_flag_bit by assumption. destruct (Z.eqb_spec j i); [contradiction|reflexivity].
Qed.
Lemma SetAttr_same f o a c p : (forall ty, In (ty, f) kept_in -> a_type a <> ty) -> SetAttr o a = Ok (c, p) -> same f o p.
Proof.
  intros N H. unfold SetAttr in H. cbv zeta in H.
  destruct (set_opflag_of (a_type a)) as [m|] eqn:Q1.
  { injection H as _ <-. apply opflag_kept in Q1 as (i & -> & Hi & J). destruct f as [| | | | |[|] j]; try reflexivity. cbn [same set_opFlag o_opFlag]. apply put_flag_other; [exact Hi|]. intros ->. exact (N _ J eq_refl). }
  destruct (set_flag_of (a_type a)) as [m|] eqn:Q2.
  { injection H as _ <-. apply flag_kept in Q2 as (i & -> & Hi & J). destruct f as [| | | | |[|] j]; try reflexivity. cbn [same set_flag o_flag]. apply put_flag_other; [exact Hi|]. intros ->. exact (N _ J eq_refl). }
  clear Q1 Q2.
  destruct (Z.eqb_spec (a_type a) CKA_CLASS) as [E|_]. { injection H as _ <-. destruct f as [| | | | |[|] j]; try reflexivity. destruct (N CKA_CLASS); [cbn; tauto|exact E]. }
  destruct (Z.eqb_spec (a_type a) CKA_ID) as [E|_]. { destruct (new_sval _ _) as [[? ?]| |]; cbn [bind] in H; try discriminate H. injection H as _ <-. destruct f as [| | | | |[|] j]; try reflexivity. destruct (N CKA_ID); [cbn; tauto|exact E]. }
  destruct (Z.eqb_spec (a_type a) CKA_LABEL) as [E|_]. { destruct (new_sval _ _) as [[? ?]| |]; cbn [bind] in H; try discriminate H. injection H as _ <-. destruct f as [| | | | |[|] j]; try reflexivity. destruct (N CKA_LABEL); [cbn; tauto|exact E]. }
  destruct (Z.eqb_spec (a_type a) CKA_START_DATE) as [E|_]. { destruct (_ =? 8)%Z; injection H as _ <-; destruct f as [| | | | |[|] j]; try reflexivity. destruct (N CKA_START_DATE); [cbn; tauto|exact E]. }
  destruct (Z.eqb_spec (a_type a) CKA_END_DATE) as [E|_]. { destruct (_ =? 8)%Z; injection H as _ <-; destruct f as [| | | | |[|] j]; try reflexivity. destruct (N CKA_END_DATE); [cbn; tauto|exact E]. }
  repeat match type of H with (if ?b then _ else _) = _ => destruct b end; injection H as _ <-; apply same_refl.
Qed.
Lemma set_loop_same f t : free_of f t -> forall o c p, set_loop o t = Ok (c, p) -> same f o p.
Proof.
  induction t as [|a t IH]; intros F o c p H; cbn [set_loop] in H; [injection H as _ <-; apply same_refl|].
  destruct (SetAttr o a) as [[c1 o1]| |] eqn:S; cbn [bind] in H; try discriminate H.
  apply (SetAttr_same f) in S. 2:{ intros ty J E. apply (F ty J). left. exact E. }
  destruct (_ =? CKR_OK)%Z; [|injection H as _ <-; exact S]. eapply same_trans; [exact S|]. eapply IH; [|exact H]. intros ty J E. apply (F ty J). right. exact E.
Qed.
Lemma SetAttributeValue_same oe f rw o t rv o' : free_of f t -> SetAttributeValue oe rw o t = Ok (rv, o') -> same f o o'.
Proof.
  intros F H. unfold SetAttributeValue in H. destruct (negb rw); [injection H as _ <-; apply same_refl|]. destruct (negb _); [injection H as _ <-; apply same_refl|].
  destruct (params_of o); [|injection H as _ <-; apply same_refl]. destruct (param_vals t l); [|injection H as _ <-; apply same_refl].
  destruct (SetKey oe o l0) as [[c o1]| |] eqn:K; cbn [bind] in H; try discriminate.
  assert (S1 : same f o o1) by (apply SetKey_frame in K as (d & n & ->); destruct f as [| | | | |[|] i]; reflexivity).
  destruct (c =? MEMORY_E)%Z; [injection H as _ <-; exact S1|]. destruct (negb _); [injection H as _ <-; exact S1|].
  eapply same_trans; [exact S1|]. eapply set_loop_same; eauto.
Qed.

(** ** Histories *)
Lemma uid_grows w rnd s c s' out : inv s -> step w rnd s c = Ok (s', out) -> (s_uid s <= s_uid s')%nat.
Proof. intros I H. exact (proj2 (step_settled _ _ _ _ _ _ I H)). Qed.
(** A number given once is not given again. *)
Lemma gone w l : forall s s' os u, inv s -> (u < s_uid s)%nat -> ~ In u (uids (live s)) -> run w s l = Ok (s', os) -> ~ In u (uids (live s')).
Proof.
  induction l as [|[c r] l IH]; cbn [run]; intros s s' os u I U N H; [injection H as <- _; exact N|].
  destruct (step w r s c) as [[s1 o1]| |] eqn:E; cbn [bind] in H; try discriminate. destruct (run w s1 l) as [[s2 os2]| |] eqn:E2; cbn [bind] in H; try discriminate. injection H as <- _.
  eapply IH; [eapply step_inv; eauto| | |exact E2]; [pose proof (uid_grows _ _ _ _ _ _ I E); lia|].
  intros J. apply in_map_iff in J as (o & <- & J). destruct (step_new w r s c s1 o1 I E o J) as [(p & P & Q)|[L _]]; [|lia]. apply N. rewrite <- Q. apply in_map. exact P.
Qed.
Definition names (ty : Z) (c : op) : Prop := exists h ho t, c = OSetAttributeValue h ho t /\ In ty (map a_type t).

(** One call: an object that was there and is there shows what it showed, except when the
    call is C_SetAttributeValue, in a read/write session, on a handle that finds the object;
    then the change is the one made by the template. *)
Theorem C110_step_partial w d s rnd c s' out o o' : reach w (sys0 d) s -> step w rnd s c = Ok (s', out) -> In o (live s) -> In o' (live s') -> o_uid o' = o_uid o ->
  (forall f, same f o o') \/
  (exists h ho t x rv, c = OSetAttributeValue h ho t /\ sess_get s h = Some x /\ is_rw x = true /\ find_obj s x ho = Some o /\
     SetAttributeValue (w_oe w) true o t = Ok (rv, o') /\ forall f, free_of f t -> same f o o').
Proof.
  intros R H P Q E. pose proof (reach_inv w d s R) as I. destruct (step_keeps w rnd s c s' out I H o o' P Q E) as [F|(h & ho & t & x & rv & -> & G & Rw & Fi & S)].
  - left. intros f. apply face_same. exact F.
  - right. exists h, ho, t, x, rv. repeat (split; [assumption || reflexivity|]). intros f Fr. eapply SetAttributeValue_same; eauto.
Qed.
Print Assumptions C110_step_partial.

(** Any number of calls, of any kind: an attribute that no C_SetAttributeValue call names
    is as it was; kind, handle, place and origin are as they were in any case. *)
Theorem C110_partial w d s l s' os o o' : reach w (sys0 d) s -> run w s l = Ok (s', os) -> In o (live s) -> In o' (live s') -> o_uid o' = o_uid o ->
  (o_type o' = o_type o /\ o_handle o' = o_handle o /\ o_onTok o' = o_onTok o /\ o_local o' = o_local o /\ o_kgm o' = o_kgm o) /\
  forall f, (forall c ty, In c (map fst l) -> In (ty, f) kept_in -> ~ names ty c) -> same f o o'.
Proof.
  intros R H P Q E. pose proof (reach_inv w d s R) as I. clear R. revert s os o I H P E. induction l as [|[c r] l IH]; cbn [run]; intros s os o I H P E.
  { injection H as <- _. assert (o' = o) as -> by (apply (uid_same s); [apply I|assumption..]). split; [repeat split|]. intros. apply same_refl. }
  destruct (step w r s c) as [[s1 o1]| |] eqn:St; cbn [bind] in H; try discriminate. destruct (run w s1 l) as [[s2 os2]| |] eqn:Ru; cbn [bind] in H; try discriminate. injection H as <- _.
  pose proof (step_inv _ _ _ _ _ _ I St) as I1.
  destruct (in_dec Nat.eq_dec (o_uid o) (uids (live s1))) as [J|N].
  2:{ exfalso. refine (gone w l s1 s2 os2 (o_uid o) I1 _ N Ru _); [|rewrite <- E; apply in_map; exact Q].
      pose proof (uid_grows _ _ _ _ _ _ I St). destruct I as (_ & _ & [_ F] & _). rewrite Forall_forall in F. apply (in_map o_uid), F in P. lia. }
  apply in_map_iff in J as (p & Ep & J). destruct (IH s1 os2 p I1 Ru J ltac:(congruence)) as [(A1 & A2 & A3 & A4 & A5) B].
  destruct (step_keeps w r s c s1 o1 I St o p P J Ep) as [F|(h & ho & t & x & rv & -> & G & Rw & Fi & S)].
  - split; [rewrite A1, A2, A3, A4, A5; repeat split|].
    + exact (f_equal o_type F).
    + exact (f_equal o_handle F).
    + exact (f_equal o_onTok F).
    + exact (f_equal o_local F).
    + exact (f_equal o_kgm F).
    + intros f Nm. eapply same_trans; [apply face_same; exact F|]. apply B. intros c0 ty C. apply Nm. right. exact C.
  - destruct (SetAttributeValue_id w _ _ _ _ _ S) as [(_ & S1 & S2 & S3 & _) _]. pose proof (SetAttributeValue_mark w _ _ _ _ _ S) as M. injection M as M1 M2.
    split; [repeat split; congruence|]. intros f Nm. eapply same_trans; [eapply SetAttributeValue_same; [|exact S]|].
    + intros ty T C. apply (Nm (OSetAttributeValue h ho t) ty); [left; reflexivity|exact T|]. exists h, ho, t. split; [reflexivity|exact C].
    + apply B. intros c0 ty C. apply Nm. right. exact C.
Qed.
Print Assumptions C110_partial.

(** ** What PKCS #11 asks: protection is not taken back, the class is fixed, an object that
    is not modifiable is not modified. *)
Definition C110_sensitive_claim (w : world) : Prop := forall d s rnd c s' out o o', reach w (sys0 d) s -> step w rnd s c = Ok (s', out) ->
  In o (live s) -> In o' (live s') -> o_uid o' = o_uid o -> Z.testbit (o_flag o) 1 = true -> Z.testbit (o_flag o') 1 = true.
Definition C110_extractable_claim (w : world) : Prop := forall d s rnd c s' out o o', reach w (sys0 d) s -> step w rnd s c = Ok (s', out) ->
  In o (live s) -> In o' (live s') -> o_uid o' = o_uid o -> Z.testbit (o_flag o) 2 = false -> Z.testbit (o_flag o') 2 = false.
Definition C110_class_claim (w : world) : Prop := forall d s rnd c s' out o o', reach w (sys0 d) s -> step w rnd s c = Ok (s', out) ->
  In o (live s) -> In o' (live s') -> o_uid o' = o_uid o -> o_class o' = o_class o.
Definition C110_modifiable_claim (w : world) : Prop := forall d s rnd h t ho s1 rnd' t' s2 out, reach w (sys0 d) s ->
  In (mkA CKA_MODIFIABLE FALSE) t -> step w rnd s (OCreateObject h t) = Ok (s1, OutH CKR_OK ho) -> step w rnd' s1 (OSetAttributeValue h ho t') = Ok (s2, out) -> out_rv out <> CKR_OK.

Definition fixed_tmpl : template :=
  [mkA CKA_CLASS (ULONG CKO_SECRET_KEY); mkA CKA_KEY_TYPE (ULONG CKK_AES); mkA CKA_VALUE (AV (repeat 7%N 16));
   mkA CKA_SENSITIVE TRUE; mkA CKA_EXTRACTABLE FALSE; mkA CKA_MODIFIABLE FALSE].
Definition fixed : list op := setup ++ [OOpenSession 1 RW; OCreateObject H2 fixed_tmpl].
Definition looser : op := OSetAttributeValue H2 1 [mkA CKA_SENSITIVE FALSE; mkA CKA_EXTRACTABLE TRUE; mkA CKA_CLASS (ULONG CKO_PUBLIC_KEY)].
Definition fixed_obj (s : sys) : option obj := match sess_get s H2 with Some x => find_obj s x 1 | None => None end.
Lemma fixed_obj_live s o : fixed_obj s = Some o -> In o (live s).
Proof.
  unfold fixed_obj. destruct (sess_get s H2) as [x|] eqn:G; [|discriminate]. unfold find_obj. intros F. apply find_some in F as [F _]. apply sess_get_in in G as (X & _).
  unfold live. apply in_or_app. destruct (on_token 1); [left; exact F|right; eapply all_objs_in; eauto].
Qed.
Lemma loosened : exists s' o o', step tw (rnd 500) (after fixed) looser = Ok (s', OutRv CKR_OK) /\ reach tw (sys0 nofiles) (after fixed) /\ In o (live (after fixed)) /\ In o' (live s') /\ o_uid o' = o_uid o /\
  Z.testbit (o_flag o) 1 = true /\ Z.testbit (o_flag o') 1 = false /\ Z.testbit (o_flag o) 2 = false /\ Z.testbit (o_flag o') 2 = true /\ o_class o = CKO_SECRET_KEY /\ o_class o' = CKO_PUBLIC_KEY.
Proof.
  assert (E : match step tw (rnd 500) (after fixed) looser with
              | Ok (s', OutRv 0%Z) => match fixed_obj (after fixed), fixed_obj s' with
                  | Some o, Some o' => (o_uid o' =? o_uid o)%nat = true /\ Z.testbit (o_flag o) 1 = true /\ Z.testbit (o_flag o') 1 = false /\ Z.testbit (o_flag o) 2 = false /\ Z.testbit (o_flag o') 2 = true /\ o_class o = CKO_SECRET_KEY /\ o_class o' = CKO_PUBLIC_KEY
                  | _, _ => False end
              | _ => False end) by (vm_compute; repeat split).
  destruct (step tw (rnd 500) (after fixed) looser) as [[s' out]| |] eqn:S; [|contradiction E..]. destruct out as [rv| | | | | | |]; [|contradiction E..]. destruct rv; [|contradiction E..].
  destruct (fixed_obj (after fixed)) as [o|] eqn:A; [|contradiction E]. destruct (fixed_obj s') as [o'|] eqn:B; [|contradiction E]. destruct E as (E1 & E).
  exists s', o, o'. split; [reflexivity|]. split; [apply after_reach; vm_compute; exact I|]. split; [exact (fixed_obj_live _ _ A)|]. split; [exact (fixed_obj_live _ _ B)|]. split; [apply Nat.eqb_eq; exact E1|exact E].
Qed.
Theorem C110_refuted : ~ C110_sensitive_claim tw /\ ~ C110_extractable_claim tw /\ ~ C110_class_claim tw /\ ~ C110_modifiable_claim tw.
Proof.
  destruct loosened as (s' & o & o' & S & R & P & Q & E & A & A' & B & B' & D & D').
  split; [|split; [|split]].
  - intros C. rewrite (C _ _ _ _ _ _ _ _ R S P Q E A) in A'. discriminate A'.
  - intros C. rewrite (C _ _ _ _ _ _ _ _ R S P Q E B) in B'. discriminate B'.
  - intros C. rewrite (C _ _ _ _ _ _ _ _ R S P Q E), D in D'. discriminate D'.
  - intros C. assert (F : exists s1 s2 out, step tw (rnd 500) (after (setup ++ [OOpenSession 1 RW])) (OCreateObject H2 fixed_tmpl) = Ok (s1, OutH CKR_OK 1) /\
      step tw (rnd 600) s1 (OSetAttributeValue H2 1 [mkA CKA_LABEL (AV [65%N])]) = Ok (s2, out) /\ out_rv out = CKR_OK) by (eexists _, _, _; split; [vm_compute; reflexivity|split; [vm_compute; reflexivity|reflexivity]]).
    destruct F as (s1 & s2 & out & F1 & F2 & F3). eapply C; [| |exact F1|exact F2|exact F3]; [apply after_reach; vm_compute; exact I|cbn; tauto].
Qed.
Print Assumptions C110_refuted.
(** Seen from outside: the class is another one, and the value that could not be read is
    given out (it is empty, since the call sets the value from its template as well). *)
Example loosened_shown :
  let ask := OGetAttributeValue H2 1 [mkA CKA_CLASS (AV (zeros 8)); mkA CKA_VALUE (AV (zeros 16))] in
  skipn 8 (outs (fixed ++ [ask; looser; ask])) =
  [OutH CKR_OK 1; OutT CKR_OK [mkA CKA_CLASS (ULONG CKO_SECRET_KEY); mkA CKA_VALUE (AUnav (zeros 16))];
   OutRv CKR_OK; OutT CKR_OK [mkA CKA_CLASS (ULONG CKO_PUBLIC_KEY); mkA CKA_VALUE (AV [])]].
Proof. vm_compute. reflexivity. Qed.

(** ** C111: the origin of a key *)
(** CKA_LOCAL TRUE exactly for keys generated in the token, and the mechanism with it. *)
Definition generated (c : op) : Prop := match c with OGenerateKey _ _ _ _ | OGenerateKeyPair _ _ _ _ _ => True | _ => False end.
Definition C111_claim (w : world) : Prop := forall d s rnd c s' out o, reach w (sys0 d) s -> step w rnd s c = Ok (s', out) -> generated c ->
  In o (live s') -> (forall p, In p (live s) -> o_uid p <> o_uid o) -> o_local o = true /\ o_kgm o <> UNAVAILABLE.
Definition C111_copy_claim (w : world) : Prop := forall d s rnd h ho t s' out x o p, reach w (sys0 d) s -> step w rnd s (OCopyObject h ho t) = Ok (s', out) ->
  sess_get s h = Some x -> find_obj s x ho = Some o -> In p (live s') -> (forall q, In q (live s) -> o_uid q <> o_uid p) -> mark p = mark o.

(** A call that makes one new object, found under handle 1 or given back. *)
Definition fresh (s s' : sys) (p : obj) : bool := forallb (fun q => negb (o_uid q =? o_uid p)%nat) (live s).
Lemma fresh_ok s s' p : fresh s s' p = true -> forall q, In q (live s) -> o_uid q <> o_uid p.
Proof. unfold fresh. rewrite forallb_forall. intros F q Q E. specialize (F q Q). rewrite E, Nat.eqb_refl in F. discriminate F. Qed.
Lemma filter_in s s' (g : obj -> bool) : existsb (fun p => andb (fresh s s' p) (g p)) (live s') = true -> exists p, In p (live s') /\ (forall q, In q (live s) -> o_uid q <> o_uid p) /\ g p = true.
Proof. intros E. apply existsb_exists in E as (p & P & G). apply andb_prop in G as [F G]. exists p. split; [exact P|]. split; [exact (fresh_ok s s' p F)|exact G]. Qed.

Definition open_rw : list op := setup ++ [OOpenSession 1 RW].
Definition gen_aes : op := OGenerateKey H2 true [mkA CKA_VALUE_LEN (ULONG 16)] (repeat 9%N 16).
Definition gen_rsa : op := OGenerateKeyPair H2 KP_RSA [] [] (Some (GRsa (mkRsa 33 7 3 11 1 7 2 3))).
Lemma aes_unmarked : exists s' out, step tw (rnd 500) (after open_rw) gen_aes = Ok (s', out) /\ existsb (fun p => andb (fresh (after open_rw) s' p) (negb (o_local p))) (live s') = true.
Proof.
  assert (E : match step tw (rnd 500) (after open_rw) gen_aes with Ok (s', _) => existsb (fun p => andb (fresh (after open_rw) s' p) (negb (o_local p))) (live s') | _ => false end = true) by (vm_compute; reflexivity).
  destruct (step tw (rnd 500) (after open_rw) gen_aes) as [[s' out]| |]; [|discriminate E..]. exists s', out. split; [reflexivity|exact E].
Qed.
Definition rsa_there : list op := open_rw ++ [gen_rsa].
Lemma copy_unmarked : exists s' out x o, step tw (rnd 500) (after rsa_there) (OCopyObject H2 1 [mkA CKA_LABEL (AV [65%N])]) = Ok (s', out) /\ sess_get (after rsa_there) H2 = Some x /\ find_obj (after rsa_there) x 1 = Some o /\ o_local o = true /\
  existsb (fun p => andb (fresh (after rsa_there) s' p) (negb (o_local p))) (live s') = true.
Proof.
  assert (E : match step tw (rnd 500) (after rsa_there) (OCopyObject H2 1 [mkA CKA_LABEL (AV [65%N])]), sess_get (after rsa_there) H2 with
              | Ok (s', _), Some x => match find_obj (after rsa_there) x 1 with Some o => o_local o = true /\ existsb (fun p => andb (fresh (after rsa_there) s' p) (negb (o_local p))) (live s') = true | None => False end
              | _, _ => False end) by (vm_compute; repeat split).
  destruct (step tw (rnd 500) (after rsa_there) _) as [[s' out]| |]; [|contradiction E..]. destruct (sess_get (after rsa_there) H2) as [x|]; [|contradiction E].
  destruct (find_obj (after rsa_there) x 1) as [o|] eqn:F; [|contradiction E]. exists s', out, x, o. split; [reflexivity|]. split; [reflexivity|]. split; [exact F|exact E].
Qed.
Theorem C111_refuted : ~ C111_claim tw /\ ~ C111_copy_claim tw.
Proof.
  split; intros C.
  - destruct aes_unmarked as (s' & out & S & E). apply filter_in in E as (p & P & F & G).
    assert (R : reach tw (sys0 nofiles) (after open_rw)) by (apply after_reach; vm_compute; exact I).
    destruct (C nofiles _ _ _ _ _ p R S Logic.I P F) as [L _]. rewrite L in G. discriminate G.
  - destruct copy_unmarked as (s' & out & x & o & S & X & O & L & E). apply filter_in in E as (p & P & F & G).
    assert (R : reach tw (sys0 nofiles) (after rsa_there)) by (apply after_reach; vm_compute; exact I).
    pose proof (C nofiles _ _ _ _ _ _ _ _ _ p R S X O P F) as M. injection M as M _. rewrite M, L in G. discriminate G.
Qed.
Print Assumptions C111_refuted.

(** What holds: the marks of an object never change, and a new object bears those of the
    call that made it: TRUE and the mechanism for a generated pair, FALSE and no mechanism
    for every other call. *)
Theorem C111_partial w d s l s' os o' : reach w (sys0 d) s -> run w s l = Ok (s', os) -> In o' (live s') ->
  (exists o, In o (live s) /\ o_uid o = o_uid o' /\ o_local o' = o_local o /\ o_kgm o' = o_kgm o) \/
  (exists c, In c (map fst l) /\ (c = OInitialize \/ creates c = true /\
     ((exists h m tp tv g, c = OGenerateKeyPair h m tp tv g /\ o_local o' = true /\ o_kgm o' = (match m with KP_RSA => 0 | KP_EC => 0x1040 | _ => 0x20 end)%Z) \/
      (forall h m tp tv g, c <> OGenerateKeyPair h m tp tv g) /\ o_local o' = false /\ o_kgm o' = UNAVAILABLE))).
Proof.
  intros R H Q. pose proof (reach_inv w d s R) as I. clear R. revert s os I H. induction l as [|[c r] l IH]; cbn [run]; intros s os I H.
  { injection H as <- _. left. exists o'. repeat split; exact Q. }
  destruct (step w r s c) as [[s1 o1]| |] eqn:St; cbn [bind] in H; try discriminate. destruct (run w s1 l) as [[s2 os2]| |] eqn:Ru; cbn [bind] in H; try discriminate. injection H as <- _.
  destruct (IH s1 os2 (step_inv _ _ _ _ _ _ I St) Ru) as [(p & P & E & A & B)|(c0 & C0 & K)]; [|right; exists c0; split; [right; exact C0|exact K]].
  destruct (step_new w r s c s1 o1 I St p P) as [(q & J & E1)|[_ M]].
  - left. exists q. split; [exact J|]. split; [congruence|]. rewrite A, B. destruct (step_keeps w r s c s1 o1 I St q p J P ltac:(congruence)) as [F|(h & ho & t & x & rv & -> & G & Rw & Fi & S)].
    + split; [exact (f_equal o_local F)|exact (f_equal o_kgm F)].
    + pose proof (SetAttributeValue_mark w _ _ _ _ _ S) as M. injection M as M1 M2. split; assumption.
  - right. exists c. split; [left; reflexivity|]. destruct (loading s c) eqn:LD; [left; destruct c; try discriminate LD; reflexivity|]. right. destruct (M eq_refl) as [Cr Mk]. split; [exact Cr|].
    pose proof (f_equal fst Mk) as M1. pose proof (f_equal snd Mk) as M2. cbn [mark fst snd] in M1, M2. rewrite A, B, M1, M2. destruct c; try discriminate Cr; [right|right|right| |right|right]; cbn [mark_of fst snd]; try (split; [discriminate|split; reflexivity]).
    left. exists h, m, tpub, tpriv, g. split; [reflexivity|]. destruct m; split; reflexivity.
Qed.
Print Assumptions C111_partial.
(** An RSA pair is generated and its public key renamed and read again: still local; the
    copy of it and an AES key are not. *)
Example C111_case :
  let ask h := OGetAttributeValue H2 h [mkA CKA_LOCAL (AV [7%N]); mkA CKA_KEY_GEN_MECHANISM (AV (zeros 8))] in
  let no := OutT CKR_OK [mkA CKA_LOCAL FALSE; mkA CKA_KEY_GEN_MECHANISM (AV (repeat 255%N 8))] in
  let rsa := OutT CKR_OK [mkA CKA_LOCAL TRUE; mkA CKA_KEY_GEN_MECHANISM (ULONG 0)] in
  skipn 8 (outs (rsa_there ++ [OSetAttributeValue H2 2 [mkA CKA_ID (AV [1; 2]%N)]; ask 1; ask 2; OCopyObject H2 1 [mkA CKA_LABEL (AV [65%N])]; gen_aes; ask 3; ask 4])%Z) =
  [OutH2 CKR_OK 1 2; OutRv CKR_OK; rsa; rsa; OutH CKR_OK 3; OutH CKR_OK 4; no; no].
Proof. vm_compute. reflexivity. Qed.
