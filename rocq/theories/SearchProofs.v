(** Matching a template against an object, and the result list of a search. *)
From Verif Require Import Base Ops Object ObjectSpec ObjectProofs GetProofs Store Sys SysProofs WfProofs.

Definition dates8 (o : obj) : Prop := length (o_start o) = 8%nat /\ length (o_end o) = 8%nat.
Lemma oinv_dates o : oinv o -> dates8 o.
Proof. intros (_ & A & B & _). split; assumption. Qed.

(** What holds of every way of reading an attribute. *)
Definition fine (P : Z -> Prop) (g : option Z -> res gres) : Prop :=
  (forall n l w, (0 <= n)%Z -> g (Some n) = Ok (0%Z, l, w) -> (zlen w <= n)%Z /\
     exists m, l = Some m /\ (m = UNAVAILABLE \/ (P m /\ exists w0, g None = Ok (0%Z, Some m, w0)))) /\
  (forall l w0, g None = Ok (0%Z, l, w0) -> exists m, l = Some m /\ (m = 0%Z -> g (Some 0%Z) = Ok (0%Z, Some 0%Z, []))).
Lemma fine_data (P : Z -> Prop) d : P (zlen d) -> fine P (fun b => Ok (get_data d b)).
Proof.
  intros Pd. split; cbn; unfold get_data.
  - intros n l w N. destruct (Z.ltb_spec n (zlen d)); [discriminate|]. intros [= <- <-]. split; [assumption|]. exists (zlen d). split; [reflexivity|]. right. split; [exact Pd|eauto].
  - intros l w0 [= <- <-]. exists (zlen d). split; [reflexivity|]. intros E. rewrite E. destruct d; [reflexivity|unfold zlen in E; cbn in E; lia].
Qed.
Lemma fine_na (P : Z -> Prop) : fine P (fun _ => Ok g_na).
Proof. split; intros; discriminate. Qed.
Lemma fine_unavail (P : Z -> Prop) : fine P (fun _ => Ok g_unavail).
Proof. split; [intros n l w N [= <- <-]; split; [unfold zlen; cbn; lia|eauto]|intros l w0 [= <- <-]]. exists UNAVAILABLE. split; [reflexivity|discriminate]. Qed.
Lemma fine_undef (P : Z -> Prop) u : fine P (fun _ => Undef u).
Proof. split; intros; discriminate. Qed.
Lemma fine_err (P : Z -> Prop) u : fine P (fun _ => Err u).
Proof. split; intros; discriminate. Qed.
Lemma fine_sval (P : Z -> Prop) s : (forall m, P m) -> fine P (get_sval s).
Proof.
  intros A. destruct s as [b|k]; [apply fine_data, A|]. split; cbn.
  - intros n l w N H. destruct (n <? k)%Z; [discriminate|]. destruct (Z.eqb_spec k 0); [|discriminate]. injection H as <- <-. subst k. split; [exact N|]. exists 0%Z. eauto 6.
  - intros l w0 [= <- <-]. exists k. split; [reflexivity|]. intros ->. reflexivity.
Qed.
Lemma fine_date (P : Z -> Prop) d : P 0%Z -> P (zlen d) -> fine P (fun b => Ok (get_date d b)).
Proof.
  intros P0 P8. unfold get_date. destruct (_ =? 0)%N; [|apply fine_data; exact P8]. split.
  - intros n l w N [= <- <-]. split; [exact N|]. exists 0%Z. eauto 6.
  - intros l w0 [= <- <-]. exists 0%Z. auto.
Qed.
Lemma fine_buf (P : Z -> Prop) k b : (forall m, P m) -> fine P (get_buf k b).
Proof.
  intros A. split; cbn.
  - intros n l w N. destruct (Z.ltb_spec n k); [discriminate|]. destruct (Z.ltb_spec (zlen b) k); [discriminate|]. intros [= <- <-]. split; [apply firstn_zlen; assumption|]. exists k. eauto 6.
  - intros l w0 [= <- <-]. exists k. split; [reflexivity|]. intros ->. cbn. destruct (Z.ltb_spec (zlen b) 0); [unfold zlen in *; lia|reflexivity].
Qed.
Lemma fine_params oe (P : Z -> Prop) k : (forall m, P m) -> fine P (GetEcParams oe k).
Proof.
  intros A. split; unfold GetEcParams.
  - intros n l w N. pose proof (GetEcParams_within oe k n N) as Wi. unfold GetEcParams in Wi. destruct (ec_curve k) as [id|]; [|discriminate]. destruct (_ <? _)%Z; [discriminate|]. cbn [within] in Wi.
    intros H. injection H as <- <-. split; [exact Wi|]. eexists. split; [reflexivity|]. right. split; [apply A|eauto].
  - intros l w0. destruct (ec_curve k) as [id|]; [|discriminate]. intros H. injection H as <- <-. eexists. split; [reflexivity|]. intros E. exfalso. unfold zlen in E. lia.
Qed.
Lemma fine_point oe (P : Z -> Prop) k : (forall m, P m) -> fine P (GetEcPoint oe k).
Proof.
  intros A. split; unfold GetEcPoint.
  - intros n l w N. destruct (ec_curve k) as [id|]; [|discriminate]. destruct (_ <? _)%Z; [discriminate|]. destruct (oe_export oe id (ec_pt k)) as [c pt].
    match goal with |- (if (n <? zlen ?w)%Z then _ else _) = _ -> _ => destruct (Z.ltb_spec n (zlen w)) end; [discriminate|].
    intros H1. injection H1 as -> <- <-. split; [assumption|]. eexists. split; [reflexivity|]. right. split; [apply A|eauto].
  - intros l w0. destruct (ec_curve k) as [id|]; [|discriminate]. intros H. injection H as <- <-. eexists. split; [reflexivity|]. intros E. exfalso.
    pose proof (Z.mod_pos_bound (oe_ecsize oe id * 2 + 1) (2^32) eq_refl) as B. fold (u32 (oe_ecsize oe id * 2 + 1)) in B. destruct (_ <=? _)%Z; lia.
Qed.
(** The length suits the type. *)
Definition suits (ty m : Z) : Prop := kind_of ty <> None /\ len_ok ty m.
Lemma suits_data ty : kind_of ty = Some AK_data -> forall m, suits ty m.
Proof. intros E m. unfold suits, len_ok. rewrite E. split; [discriminate|exact I]. Qed.
Lemma suits_bool ty b : kind_of ty = Some AK_bool -> suits ty (zlen [if b : bool then 1%N else 0%N]).
Proof. intros E. unfold suits, len_ok. rewrite E. split; [discriminate|reflexivity]. Qed.
Lemma suits_ulong ty v : kind_of ty = Some AK_ulong -> suits ty (zlen (to_le 8 v)).
Proof. intros E. unfold suits, len_ok. rewrite E. split; [discriminate|reflexivity]. Qed.
Ltac f1 := first [ apply fine_data; split; [vm_compute; discriminate|vm_compute; reflexivity] | apply fine_na | apply fine_unavail | apply fine_undef | apply fine_err
  | apply fine_data, suits_data; reflexivity | apply fine_data, suits_bool; reflexivity | apply fine_data, suits_ulong; reflexivity
  | apply fine_sval, suits_data; reflexivity | apply fine_buf, suits_data; reflexivity
  | apply fine_params, suits_data; reflexivity | apply fine_point, suits_data; reflexivity ].
Theorem GetAttr_fine oe o ty : dates8 o -> fine (suits ty) (GetAttr oe o ty).
Proof.
  intros [D1 D2]. unfold GetAttr. destruct (get_flag_of ty) as [f|] eqn:Ef; [apply fine_data, suits_bool; eapply get_flag_kind; eauto|].
  repeat match goal with
  | |- fine _ (fun buf => if (?a =? ?b)%Z then _ else _) =>
      let E := fresh "E" in destruct (Z.eqb_spec a b) as [E|E]; [first [subst ty; f1|subst ty; apply fine_date; [split; [discriminate|right; reflexivity]|split; [discriminate|left; unfold zlen; cbn; lia]]|idtac]|]
  end.
  all: cbn in D1, D2; try (unfold zlen; lia).
  destruct (andb (o_class o =? CKO_CERTIFICATE)%Z (ty =? CKA_VALUE)%Z) eqn:Cv.
  { apply andb_prop in Cv as [_ Cv]. apply Z.eqb_eq in Cv. subst ty. destruct (as_cert o) as [[l b]| |]; cbn [bind]; f1. }
  destruct (o_type o =? CKK_RSA)%Z.
  { unfold RsaGetAttr. destruct (as_rsa o) as [r| |]; cbn [bind]; [|apply fine_err|apply fine_undef].
    repeat match goal with |- fine _ (fun buf => if (ty =? ?b)%Z then _ else _) => let E := fresh "E" in destruct (Z.eqb_spec ty b) as [E|E]; [subst ty; try (match goal with |- fine _ (fun buf => Ok (if ?b then _ else _)) => destruct b end); f1|] end. apply fine_na. }
  destruct (o_type o =? CKK_EC)%Z.
  { unfold EcGetAttr. destruct (as_ec o) as [r| |]; cbn [bind]; [|apply fine_err|apply fine_undef]. cbv zeta.
    repeat match goal with |- fine _ (fun buf => if (ty =? ?b)%Z then _ else _) => let E := fresh "E" in destruct (Z.eqb_spec ty b) as [E|E]; [subst ty; try (match goal with |- fine _ (fun buf => Ok (if ?b then _ else _)) => destruct b | |- fine _ (fun buf => if ?b then _ else _) => destruct b end); f1|] end. apply fine_na. }
  destruct (o_type o =? CKK_DH)%Z.
  { unfold DhGetAttr. destruct (as_dh o) as [[[[p g] l] b]| |]; cbn [bind]; [|apply fine_err|apply fine_undef].
    repeat match goal with |- fine _ (fun buf => if (ty =? ?b)%Z then _ else _) => let E := fresh "E" in destruct (Z.eqb_spec ty b) as [E|E]; [subst ty; try (match goal with |- fine _ (fun buf => if ?b then _ else _) => destruct b end); f1|] end. apply fine_na. }
  destruct (orb _ _); [|apply fine_na].
  unfold SecretGetAttr. destruct (as_sym o) as [[l b]| |]; cbn [bind]; [|apply fine_err|apply fine_undef].
  repeat match goal with |- fine _ (fun buf => if (ty =? ?b)%Z then _ else _) => let E := fresh "E" in destruct (Z.eqb_spec ty b) as [E|E]; [subst ty; try (match goal with |- fine _ (fun buf => if ?b then _ else _) => destruct b end); f1|] end. apply fine_na.
Qed.

(** ** Entries of a search template *)
(** The value an entry asks for; [None]: no object can have it. *)
Definition asked (a : attr) : option (list N) :=
  match a_val a with AV b => Some b | ANull 0 => Some [] | _ => None end.
(** The object has the value: C_GetAttributeValue reports its length and (if it is
    not empty) reads it. *)
Definition has (oe : oenv) (o : obj) (ty : Z) (v : list N) : Prop :=
  api_query oe o ty (zlen v) /\ (v = [] \/ api_reads oe o ty v).
Definition named (oe : oenv) (o : obj) (a : attr) : Prop := exists v, asked a = Some v /\ has oe o (a_type a) v.
Lemma get_rv_ok c : get_rv c = CKR_OK -> c = 0%Z.
Proof. unfold get_rv. destruct (Z.eqb_spec c 0); [auto|]. repeat (destruct (_ =? _)%Z; [discriminate|]). discriminate. Qed.
Lemma check_suits ty m b : suits ty m -> m <> 0%Z -> zlen b = m -> check_attr false (mkA ty (AV b)) = CKR_OK.
Proof.
  unfold suits, len_ok, check_attr. cbn [a_type a_val]. intros [K L] N E. destruct (kind_of ty) as [[| | |]|]; try contradiction; cbn [v_len andb]; try (rewrite E).
  all: first [reflexivity | rewrite L; reflexivity | destruct L as [->|L]; [reflexivity|contradiction]].
Qed.
Lemma check_null ty : kind_of ty <> None -> check_attr false (mkA ty (ANull 0)) = CKR_OK.
Proof. unfold check_attr. cbn [a_type a_val]. intros K. destruct (kind_of ty) as [[| | |]|]; [reflexivity..|contradiction]. Qed.
Lemma overlay_all buf v : zlen buf = zlen v -> firstn (Z.to_nat (zlen v)) (overlay buf v) = v.
Proof.
  intros E. unfold overlay. rewrite skipn_all2, app_nil_r by (unfold zlen in E; lia). apply firstn_all2. unfold zlen. lia.
Qed.
Section S.
Variable oe : oenv.
Lemma match_named o a : dates8 o -> MatchAttr oe o a = Ok true -> named oe o a.
Proof.
  intros D H. unfold MatchAttr in H. cbv zeta in H. destruct (2^63 <=? a_len a)%Z eqn:Big; [discriminate|]. apply Z.leb_gt in Big.
  destruct (GetAttr oe o (a_type a) (Some (a_len a))) as [[[c l] w]| |] eqn:G; cbn [bind] in H; try discriminate.
  destruct (Z.eqb_spec c 0) as [->|]; cbn [andb] in H; [|discriminate]. destruct (GetAttr_fine oe o (a_type a) D) as [F _].
  assert (N : (0 <= a_len a)%Z).
  { unfold a_len in *. destruct (a_val a) as [b|n|b] eqn:V; cbn [v_len] in *; [unfold zlen; lia| |unfold UNAVAILABLE; lia]. destruct (_ =? _)%Z; [|discriminate]. destruct (Z.eqb_spec n 0); [lia|discriminate]. }
  destruct (F _ _ _ N G) as (_ & m & -> & M). destruct (Z.eqb_spec m (a_len a)) as [Em|]; [|discriminate]. subst m.
  destruct M as [M|(S & w0 & Q)]; [rewrite M in Big; exfalso; vm_compute in Big; discriminate|].
  assert (Qr : api_query oe o (a_type a) (a_len a)).
  { unfold api_query, GetAttributeValue. cbn [check_attrs]. rewrite check_null by apply S. cbn. rewrite Q. reflexivity. }
  unfold named, asked, a_len in *. destruct (a_val a) as [b|n|b] eqn:V; cbn [v_len] in *.
  - exists b. split; [reflexivity|]. split; [exact Qr|]. destruct b as [|b0 b1]; [auto|right]. destruct (list_eq_dec _ _ _) as [->|]; [|discriminate].
    intros buf E. unfold GetAttributeValue. cbn [check_attrs]. rewrite (check_suits _ _ _ S) by (first [exact E|unfold zlen; cbn; lia]). cbn [Z.eqb get_loop a_type a_val buf_of v_len].
    change (CKR_OK =? CKR_OK)%Z with true. cbv iota. rewrite E, G. cbn [bind fst]. change (get_rv 0 =? CKR_OK)%Z with true. cbv iota. cbn [bind put]. rewrite overlay_all by exact E.
    destruct (Z.eqb_spec (zlen (b0 :: b1)) UNAVAILABLE) as [Eu|_]; [rewrite Eu in Big; exfalso; vm_compute in Big; discriminate|reflexivity].
  - destruct (Z.eqb_spec n 0) as [->|]; [|discriminate]. exists []. split; [reflexivity|]. split; [exact Qr|auto].
  - exfalso. vm_compute in Big. discriminate.
Qed.
Lemma query_get o ty m : dates8 o -> api_query oe o ty m -> exists w0, GetAttr oe o ty None = Ok (0%Z, Some m, w0).
Proof.
  unfold api_query, GetAttributeValue. intros D H. cbv zeta in H. destruct (Z.eqb_spec (check_attrs false [mkA ty (ANull 0)]) CKR_OK) as [C|C]; [|injection H as H _; contradiction].
  cbn in H. destruct (GetAttr oe o ty None) as [[[c l] w0]| |] eqn:G; cbn [bind fst] in H; try discriminate.
  destruct (Z.eqb_spec (get_rv c) CKR_OK) as [E|E]; [|injection H as H _; contradiction]. apply get_rv_ok in E. subst c. destruct (GetAttr_fine oe o ty D) as [_ F].
  destruct (F _ _ G) as (m' & -> & _). cbn in H. injection H as ->. eauto.
Qed.
Lemma reads_get o ty v buf : api_reads oe o ty v -> zlen buf = zlen v -> exists l w, GetAttr oe o ty (Some (zlen v)) = Ok (0%Z, l, w) /\ put (AV buf) (0%Z, l, w) = AV v.
Proof.
  intros R E. specialize (R buf E). unfold GetAttributeValue in R. cbv zeta in R. destruct (Z.eqb_spec (check_attrs false [mkA ty (AV buf)]) CKR_OK) as [C|C]; [|injection R as R _; contradiction].
  cbn [get_loop a_type a_val buf_of v_len] in R. rewrite E in R. destruct (GetAttr oe o ty (Some (zlen v))) as [[[c l] w]| |] eqn:G; cbn [bind fst] in R; try discriminate.
  destruct (Z.eqb_spec (get_rv c) CKR_OK) as [Ec|Ec]; [|injection R as R _; contradiction]. apply get_rv_ok in Ec. subst c. exists l, w. split; [reflexivity|]. cbn [bind] in R. injection R as R. exact R.
Qed.
Lemma named_match o a : dates8 o -> (a_len a < 2^63)%Z -> named oe o a -> MatchAttr oe o a = Ok true.
Proof.
  intros D Sm (v & A & Q & R). apply query_get in Q as (w0 & Q); [|exact D]. destruct (GetAttr_fine oe o (a_type a) D) as [F1 F2].
  assert (L : a_len a = zlen v) by (unfold asked, a_len in *; destruct (a_val a) as [b|[|p|p]|b]; try discriminate; injection A as <-; reflexivity).
  unfold MatchAttr. cbv zeta. rewrite L in *. destruct (Z.leb_spec (2^63) (zlen v)); [lia|].
  assert (G : GetAttr oe o (a_type a) (Some (zlen v)) = Ok (0%Z, Some (zlen v), v)).
  { destruct v as [|v0 v1].
    - destruct (F2 _ _ Q) as (m & E & K). injection E as <-. apply K. reflexivity.
    - destruct R as [R|R]; [discriminate|]. set (v := v0 :: v1) in *. set (flip := map (fun b => if (b =? 0)%N then 1%N else 0%N) v).
      assert (Lf : zlen flip = zlen v) by (unfold zlen, flip; rewrite map_length; reflexivity).
      destruct (reads_get _ _ _ flip R Lf) as (l & w & G & P). destruct (F1 (zlen v) l w (Nat2Z.is_nonneg _) G) as (Lw & m & -> & M).
      cbn [put] in P. destruct (Z.eqb_spec m UNAVAILABLE) as [Em|Em]; [discriminate|]. destruct M as [M|(_ & w1 & M)]; [contradiction|]. rewrite Q in M. injection M as <- _.
      rewrite G. f_equal. f_equal. injection P as P. unfold overlay in P.
      rewrite firstn_all2 in P by (rewrite app_length, skipn_length; unfold zlen in *; lia).
      destruct (Nat.eq_dec (length w) (length v)) as [E|E].
      + rewrite skipn_all2, app_nil_r in P by (unfold zlen in *; lia). exact P.
      + exfalso. assert (Lt : (length w < length v)%nat) by (unfold zlen in *; lia). apply (f_equal (skipn (length w))) in P. rewrite skipn_app, skipn_all, Nat.sub_diag in P. cbn [app skipn] in P.
        unfold flip in P. rewrite skipn_map in P. destruct (skipn (length w) v) as [|u r] eqn:Sk; [apply (f_equal (@length N)) in Sk; rewrite skipn_length in Sk; change (length (@nil N)) with 0%nat in Sk; lia|].
        cbn in P. injection P as P _. destruct (N.eqb_spec u 0); subst; [discriminate|congruence]. }
  rewrite G. cbn [bind]. rewrite !Z.eqb_refl. cbn [andb]. unfold asked in A. destruct (a_val a) as [b|[|p|p]|b]; try discriminate; injection A as <-.
  - destruct (list_eq_dec _ _ _); [reflexivity|contradiction].
  - reflexivity.
Qed.
End S.

(** ** The result list *)
Section W.
Variable w : world.
Notation oe := (w_oe w).
Lemma match_all_named o t : dates8 o -> match_all w o t = Ok true -> Forall (named oe o) t.
Proof.
  intros D. induction t as [|a t IH]; cbn; [constructor|]. destruct (MatchAttr _ _ _) as [[|]| |] eqn:M; cbn [bind]; try discriminate. intros H. constructor; [apply match_named; assumption|auto].
Qed.
Lemma named_match_all o t : dates8 o -> Forall (fun a => a_len a < 2^63)%Z t -> Forall (named oe o) t -> match_all w o t = Ok true.
Proof.
  intros D S. induction S as [|a t Sa S IH]; intros N; [reflexivity|]. inversion N as [|? ? N1 N2]. subst. cbn. rewrite (named_match oe o a D Sa N1). cbn [bind]. auto.
Qed.
Definition fits (tk : token) (t : template) (o : obj) : bool :=
  andb (visible tk o) (match match_all w o t with Ok true => true | _ => false end).
Lemma find_loop_is tk t l : forall acc r full, (length acc <= FIND_MAX)%nat -> find_loop w tk t l acc = Ok (r, full) ->
  (full = false /\ rev r = rev acc ++ map o_handle (filter (fits tk t) l) /\ (length r <= FIND_MAX)%nat) \/
  (full = true /\ length r = FIND_MAX /\ exists z, rev acc ++ map o_handle (filter (fits tk t) l) = rev r ++ z).
Proof.
  induction l as [|o l IH]; intros acc r full A H; cbn [find_loop] in H.
  - injection H as <- <-. left. cbn. rewrite app_nil_r. auto.
  - cbn [filter]. assert (Ft : fits tk t o = andb (visible tk o) (match match_all w o t with Ok true => true | _ => false end)) by reflexivity.
    destruct (visible tk o); cbn [andb] in Ft; [|rewrite Ft; auto].
    destruct (match_all w o t) as [[|]| |]; cbn [bind] in H; try discriminate; rewrite Ft; [|auto]. clear Ft.
    destruct (length acc =? FIND_MAX)%nat eqn:E.
    + injection H as <- <-. apply Nat.eqb_eq in E. right. split; [reflexivity|]. split; [exact E|]. eauto.
    + apply Nat.eqb_neq in E. apply IH in H; [|cbn [length]; lia]. cbn [rev] in H. cbn [map]. rewrite <- app_assoc in H. exact H.
Qed.
Lemma firstn_pre {A} (a b : list A) n : length a = n -> firstn n (a ++ b) = a.
Proof. intros <-. rewrite firstn_app, Nat.sub_diag, firstn_all. cbn. apply app_nil_r. Qed.
Lemma Find_is tk x b t l : loops (t_objs tk) = false -> Find w tk x b t = Ok l ->
  l = firstn FIND_MAX (map o_handle (filter (fits tk t) (ss_objs x ++ (if b then t_objs tk else [])))).
Proof.
  intros Lp H. unfold Find in H. destruct (find_loop w tk t (ss_objs x) []) as [[acc full]| |] eqn:F1; cbn [bind] in H; try discriminate.
  apply find_loop_is in F1 as [(-> & F1 & N1) | (-> & N1 & z & F1)]; [| |cbn; lia].
  - cbn [orb] in H. cbn [rev app] in F1. destruct b; cbn [negb] in H.
    + change (find_tok w (S FIND_MAX) tk t acc) with ('(acc1, full) <- find_loop w tk t (t_objs tk) acc ;; if full then Ok acc1 else if loops (t_objs tk) then (if (length acc =? length acc1)%nat then Undef UB_diverge else find_tok w FIND_MAX tk t acc1) else Ok acc1) in H.
      destruct (find_loop w tk t (t_objs tk) acc) as [[acc1 full]| |] eqn:F2; cbn [bind] in H; try discriminate.
      apply find_loop_is in F2 as [(-> & F2 & N2) | (-> & N2 & z & F2)]; [| |exact N1].
      * rewrite Lp in H. cbn [bind] in H. injection H as <-. rewrite filter_app, map_app, <- F1, <- F2. symmetry. apply firstn_all2. rewrite rev_length. exact N2.
      * cbn [bind] in H. injection H as <-. rewrite filter_app, map_app, <- F1, F2. symmetry. apply firstn_pre. rewrite rev_length. exact N2.
    + injection H as <-. rewrite app_nil_r, F1. symmetry. apply firstn_all2. rewrite <- F1, rev_length. exact N1.
  - cbn [orb] in H. injection H as <-. cbn [rev app] in F1. rewrite filter_app, map_app, F1, <- app_assoc. symmetry. apply firstn_pre. rewrite rev_length. exact N1.
Qed.
End W.
