(** Search properties: C21, C22, C23, C24, and C60 for C_FindObjectsInit. *)
From Verif Require Import Base Codec Ops OpsSpec ToyEnv Object ObjectSpec PropObject Store StoreSpec Sys SysProofs SysProofs2 SysProofs3 SysProofs4
  WfProofs ToySys PropStore PropStore2 ObjFrame ObjProofs HandleProofs QuotaProofs DiskHandles PropObj PropObj2 PropObj3 CodecProofs MarkProofs FindState SearchProofs.

(** The handles delivered to session [h] by the C_FindObjects calls of a history. *)
Fixpoint got (h : Z) (l : list (op * (nat -> list N))) (os : list out) : list Z :=
  match l, os with
  | (OFindObjects h' _, _) :: l1, OutHs _ r :: os1 => if (h' =? h)%Z then r ++ got h l1 os1 else got h l1 os1
  | _ :: l1, _ :: os1 => got h l1 os1
  | _, _ => []
  end.
(** Between C_FindObjectsInit and C_FindObjectsFinal: any calls, but none that ends
    the session or (re)starts or ends its search. *)
Definition during (h : Z) (c : op) : Prop := leaves h c \/ exists n, c = OFindObjects h n.
Definition fresh (d : fs) : Prop := forall f, d f = None.

Section W.
Variable w : world.
Notation oe := (w_oe w).
Lemma run_app a : forall s b s' os, run w s (a ++ b) = Ok (s', os) -> exists s1 os1 os2, run w s a = Ok (s1, os1) /\ run w s1 b = Ok (s', os2) /\ os = os1 ++ os2 /\ length os1 = length a.
Proof.
  induction a as [|[c rnd] a IH]; intros s b s' os H; cbn [app run] in *.
  - exists s, [], os. auto.
  - destruct (step _ _ _ _) as [[s1 o1]| |]; cbn [bind] in *; try discriminate. destruct (run w s1 (a ++ b)) as [[s2 os2]| |] eqn:E; cbn [bind] in H; try discriminate. injection H as -> <-.
    apply IH in E as (s3 & os3 & os4 & A & B & -> & L). exists s3, (o1 :: os3), os4. rewrite A. cbn. auto.
Qed.
Lemma got_one h c rnd l o os : (forall n, c <> OFindObjects h n) -> got h ((c, rnd) :: l) (o :: os) = got h l os.
Proof. intros N. cbn. destruct c; try reflexivity. destruct o; try reflexivity. destruct (Z.eqb_spec h0 h); [subst; exfalso; eapply N; reflexivity|reflexivity]. Qed.
Lemma next_out rnd s h n s' o x : (0 < s_count s)%Z -> sess_get s h = Some x -> step w rnd s (OFindObjects h n) = Ok (s', o) ->
  exists l, o = OutHs CKR_OK l /\ l = firstn (Z.to_nat (i32 n)) (skipn (ss_cur x) (ss_found x)) /\ s' = put_sess s (set_find x (ss_find x) (ss_found x) (ss_cur x + length l)).
Proof.
  intros C X H. cbn [step] in H. unfold with_sess, need_lib in H. destruct (Z.ltb_spec 0 (s_count s)); [|lia]. rewrite X in H. unfold FindNext in H. injection H as <- <-. eauto.
Qed.
Lemma sess_count s h x : inv s -> sess_get s h = Some x -> (0 < s_count s)%Z.
Proof. intros (_ & I & _) X. destruct (Z.ltb_spec 0 (s_count s)); [assumption|]. apply sess_get_in in X as (X & _). rewrite I in X by lia. contradiction. Qed.
Lemma skipn_plus {A} (l : list A) a n : skipn (a + n) l = skipn n (skipn a l).
Proof. revert l. induction a as [|a IH]; intros l; [reflexivity|]. destruct l as [|x l]; cbn; [rewrite skipn_nil; reflexivity|apply IH]. Qed.
Lemma skip_skip {A} (l : list A) a n : skipn a l = firstn n (skipn a l) ++ skipn (a + length (firstn n (skipn a l))) l.
Proof.
  rewrite <- (firstn_skipn n (skipn a l)) at 1. f_equal. rewrite firstn_length. rewrite skipn_plus. destruct (Nat.le_ge_cases n (length (skipn a l))) as [L|L].
  - rewrite Nat.min_l by exact L. reflexivity.
  - rewrite Nat.min_r by exact L. rewrite skipn_all, skipn_all2 by exact L. reflexivity.
Qed.
(** What has been delivered and what is still to come. *)
Lemma got_is h l : forall s x s' os, inv s -> sess_get s h = Some x -> run w s l = Ok (s', os) -> Forall (fun c => during h (fst c)) l ->
  exists x', sess_get s' h = Some x' /\ ss_found x' = ss_found x /\ skipn (ss_cur x) (ss_found x) = got h l os ++ skipn (ss_cur x') (ss_found x).
Proof.
  induction l as [|[c rnd] l IH]; intros s x s' os I X H F.
  - injection H as <- <-. exists x. auto.
  - cbn [run] in H. destruct (step _ _ _ _) as [[s1 o1]| |] eqn:E; cbn [bind] in H; try discriminate. destruct (run _ _ _) as [[s2 os2]| |] eqn:R; cbn [bind] in H; try discriminate. injection H as <- <-.
    inversion F as [|? ? F1 F2]. subst. pose proof (step_inv w _ _ _ _ _ I E) as I1. cbn [fst] in F1.
    assert (D : (exists n, c = OFindObjects h n) \/ (leaves h c /\ forall n, c <> OFindObjects h n)).
    { destruct F1 as [F1|F1]; [right|auto]. split; [exact F1|]. intros n ->. destruct F1 as (F1 & _). apply F1; reflexivity. }
    destruct D as [(n & ->) | [Lv N]].
    + destruct (next_out _ _ _ _ _ _ _ (sess_count _ _ _ I X) X E) as (r & -> & Er & ->).
      assert (X1 : sess_get (put_sess s (set_find x (ss_find x) (ss_found x) (ss_cur x + length r))) h = Some (set_find x (ss_find x) (ss_found x) (ss_cur x + length r))) by (eapply sess_get_put; [apply inv_uniq; exact I|exact X|reflexivity|reflexivity]).
      destruct (IH _ _ _ _ I1 X1 R F2) as (x' & X' & Fd & Sk). exists x'. split; [exact X'|]. split; [exact Fd|]. cbn [got]. rewrite Z.eqb_refl. cbn in Sk. rewrite <- app_assoc, <- Sk. rewrite Er at 1 2. apply skip_skip.
    + destruct (step_leaves w _ _ _ _ _ _ _ I Lv E X) as (x1 & X1 & K). destruct (IH _ _ _ _ I1 X1 R F2) as (x' & X' & Fd & Sk).
      rewrite (got_one _ _ _ _ _ _ N). unfold key in K. injection K as _ _ _ K1 K2. rewrite K1, K2 in *. exists x'. auto.
Qed.
Lemma init_ok rnd s h t s1 x : sess_get s h = Some x -> step w rnd s (OFindObjectsInit h t) = Ok (s1, OutRv CKR_OK) ->
  ss_find x = false /\ exists b l, (find_last t CKA_TOKEN <> None -> tmpl_token t = Some b) /\ Find w (s_tok s) x (match find_last t CKA_TOKEN with None => true | Some _ => negb (b =? 0)%N end) t = Ok l /\ s1 = put_sess s (set_find x true l 0).
Proof.
  intros X H. cbn [step] in H. unfold with_sess, need_lib in H. destruct (0 <? s_count s)%Z; [|unfold rv_ in H; discriminate]. rewrite X in H. unfold FindInit in H. destruct (ss_find x); [discriminate|]. split; [reflexivity|]. cbv zeta in H.
  destruct (find_last t CKA_TOKEN) as [a|].
  - destruct (tmpl_token t) as [b|]; [|discriminate]. destruct (Find _ _ _ _ _) as [l| |] eqn:F; cbn [bind] in H; try discriminate. unfold rv_ in H. injection H as <-. exists b, l. auto.
  - destruct (Find _ _ _ _ _) as [l| |] eqn:F; cbn [bind] in H; try discriminate. unfold rv_ in H. injection H as <-. exists 0%N, l. split; [intros K; exfalso; apply K; reflexivity|]. auto.
Qed.
End W.

(** ** C23: C_FindObjects delivers results in pieces without loss or duplication *)
(** Requested counts are CK_ULONGs. *)
Definition wants (n : Z) : Prop := (0 <= n < 2^64)%Z.
Definition pieces (w : world) (s1 : sys) (h : Z) (can : Z -> Prop) : Prop :=
  exists L, forall l s2 os, run w s1 l = Ok (s2, os) -> Forall (fun c => during h (fst c)) l ->
    (exists r, L = got h l os ++ r) /\
    (forall n rnd s3 r, can n -> step w rnd s2 (OFindObjects h n) = Ok (s3, OutHs CKR_OK r) -> (zlen r <= n)%Z /\ ((zlen r < n)%Z -> L = got h l os ++ r)).
Definition C23_claim (w : world) : Prop :=
  forall d s h t rnd s1, reach w (sys0 d) s -> step w rnd s (OFindObjectsInit h t) = Ok (s1, OutRv CKR_OK) -> pieces w s1 h wants.
Theorem C23_partial w d s h t rnd s1 : reach w (sys0 d) s -> step w rnd s (OFindObjectsInit h t) = Ok (s1, OutRv CKR_OK) ->
  pieces w s1 h (fun n => (0 <= n < 2^31)%Z).
Proof.
  intros R H. pose proof (reach_inv _ _ _ R) as I. pose proof (step_inv w _ _ _ _ _ I H) as I1.
  assert (X : exists x, sess_get s h = Some x). { cbn [step] in H. unfold with_sess, need_lib in H. destruct (0 <? s_count s)%Z; [|discriminate]. destruct (sess_get s h) as [x|]; [eauto|discriminate]. }
  destruct X as (x & X). destruct (init_ok _ _ _ _ _ _ _ X H) as (_ & b & L & _ & _ & E).
  assert (X1 : sess_get s1 h = Some (set_find x true L 0)) by (rewrite E; eapply sess_get_put; [apply inv_uniq; exact I|exact X|reflexivity|reflexivity]).
  exists L. intros l s2 os Rn F. destruct (got_is w h l _ _ _ _ I1 X1 Rn F) as (x2 & X2 & Fd & Sk). cbn [set_find ss_cur ss_found skipn] in *. split; [eauto|].
  intros n rnd2 s3 r C Hn. assert (I2 : inv s2). { clear - I1 Rn. revert s1 os I1 Rn. induction l as [|[c rn] l IH]; intros s1 os I1 Rn; cbn [run] in Rn; [injection Rn as <- _; exact I1|].
    destruct (step _ _ _ _) as [[s' o']| |] eqn:E; cbn [bind] in Rn; try discriminate. destruct (run _ _ _) as [[s4 os4]| |] eqn:Q; cbn [bind] in Rn; try discriminate. injection Rn as <- _. eapply IH; [|exact Q]. eapply step_inv; eauto. }
  destruct (next_out _ _ _ _ _ _ _ _ (sess_count _ _ _ I2 X2) X2 Hn) as (r' & Er & Rr & _). injection Er as <-. rewrite Fd, CodecProofs.i32_id in Rr by lia. cbn [set_find ss_found] in Rr.
  assert (Lr : (length r = Nat.min (Z.to_nat n) (length (skipn (ss_cur x2) L)))%nat) by (rewrite Rr, firstn_length; reflexivity).
  split; [unfold zlen; lia|]. intros Lt. rewrite Sk. f_equal. rewrite Rr. symmetry. apply firstn_all2. unfold zlen in Lt. lia.
Qed.
Print Assumptions C23_partial.
(** Ten keys in a session; asking for 2^31 handles yields none. *)
Definition an_aes (i : N) : op := OCreateObject H2 (mkA CKA_ID (AV [i]) :: aes_tmpl).
Definition three : list op := setup ++ [OOpenSession 1 RW; userlogin upin; an_aes 1; an_aes 2; an_aes 3].
Example C23_case : rvs three = repeat CKR_OK 12 /\
  skipn 12 (outs (three ++ [OFindObjectsInit H2 []; OFindObjects H2 2; OGetSessionInfo H2; an_aes 4; OFindObjects H2 2; OFindObjects H2 2])) =
  [OutRv CKR_OK; OutHs CKR_OK [3; 2]; OutInfo CKR_OK RW_USER 6; OutH CKR_OK 4; OutHs CKR_OK [1]; OutHs CKR_OK []]%Z.
Proof. vm_compute. split; reflexivity. Qed.
Theorem C23_refuted : ~ C23_claim tw.
Proof.
  intros C. destruct (step tw (rnd 0) (after three) (OFindObjectsInit H2 [])) as [[s1 o]| |] eqn:E; [|vm_compute in E; discriminate..].
  assert (R : reach tw (sys0 nofiles) (after three)) by (apply after_reach; vm_compute; exact Logic.I).
  assert (Eo : o = OutRv CKR_OK) by (vm_compute in E; injection E as _ <-; reflexivity). subst o. destruct (C nofiles _ _ _ _ _ R E) as (L & P).
  destruct (step tw (rnd 0) s1 (OFindObjects H2 1)) as [[s2 o]| |] eqn:E2; [|vm_compute in E; injection E as <-; vm_compute in E2; discriminate..].
  assert (Eo : o = OutHs CKR_OK [3%Z]) by (vm_compute in E; injection E as <-; vm_compute in E2; injection E2 as _ <-; reflexivity). subst o.
  destruct (step tw (rnd 0) s1 (OFindObjects H2 (2^31))) as [[s3 o]| |] eqn:E3; [|vm_compute in E; injection E as <-; vm_compute in E3; discriminate..].
  assert (Eo : o = OutHs CKR_OK []) by (vm_compute in E; injection E as <-; vm_compute in E3; injection E3 as _ <-; reflexivity). subst o. clear E.
  destruct (P [(OFindObjects H2 1, rnd 0)] s2 [OutHs CKR_OK [3%Z]]) as [(r & Er) _]; [cbn [run]; rewrite E2; reflexivity|constructor; [right; eexists; reflexivity|constructor]|].
  destruct (P [] s1 []) as [_ Q]; [reflexivity|constructor|]. destruct (Q (2^31)%Z (rnd 0) s3 []) as [_ Q2]; [unfold wants; lia|exact E3|].
  rewrite Q2 in Er by (unfold zlen; cbn; lia). cbn in Er. discriminate.
Qed.
Print Assumptions C23_refuted.

(** ** C21: search results are sound *)
Definition C21_good (w : world) (s : sys) : Prop :=
  forall h x t rnd s1 l s2 os, sess_get s h = Some x -> step w rnd s (OFindObjectsInit h t) = Ok (s1, OutRv CKR_OK) ->
    run w s1 l = Ok (s2, os) -> Forall (fun c => during h (fst c)) l ->
    NoDup (got h l os) /\ forall ho, In ho (got h l os) -> exists o, find_obj s x ho = Some o /\ Forall (named (w_oe w) o) t.
Definition C21_claim (w : world) : Prop :=
  laws (w_se w) -> forall d l s os, fresh d -> run w (sys0 d) l = Ok (s, os) -> (2 * (zlen l + 1) < 2^28)%Z -> Forall (fun c => usual_call (fst c)) l -> C21_good w s.

Section W2.
Variable w : world.
Lemma run_mark l : forall s s' os, inv s -> Forall (fun c => odd_call (fst c)) l -> marked s -> run w s l = Ok (s', os) -> marked s'.
Proof.
  induction l as [|[c rnd] l IH]; intros s s' os I F M H; cbn [run] in H; [injection H as <- _; exact M|].
  destruct (step _ _ _ _) as [[s1 o1]| |] eqn:E; cbn [bind] in H; try discriminate. destruct (run _ _ _) as [[s2 os2]| |] eqn:R; cbn [bind] in H; try discriminate. injection H as <- _.
  inversion F as [|? ? F1 F2]. subst. eapply IH; [eapply step_inv; eauto|exact F2| |exact R]. eapply step_mark; [exact I| |exact M|exact E]. intros t b T Tb. eapply odd_tmpl; eauto.
Qed.
Lemma fresh_marked d : fresh d -> marked (sys0 d).
Proof. intros F. split; [constructor|]. intros i f p q H. cbn in H. rewrite F in H. discriminate. Qed.
Lemma no_loop s : marked s -> loops (t_objs (s_tok s)) = false.
Proof.
  intros [M _]. unfold loops. destruct (rev (t_objs (s_tok s))) as [|o r] eqn:E; [reflexivity|]. assert (J : In o (t_objs (s_tok s))) by (apply in_rev; rewrite E; left; reflexivity).
  rewrite Forall_forall in M. rewrite (M o J). reflexivity.
Qed.
Lemma NoDup_sub {A} (a b : list A) : sub a b -> NoDup b -> NoDup a.
Proof. induction 1 as [|x a b S IH|x a b S IH]; intros N; [exact N| |]; inversion N as [|? ? N1 N2]; subst; [constructor; [|auto]|auto]. intros J. apply N1. eapply sub_in; eauto. Qed.
Lemma sub_filter {A} (p : A -> bool) l : sub (filter p l) l.
Proof. induction l as [|x l IH]; cbn; [constructor|]. destruct (p x); constructor; exact IH. Qed.
Lemma sub_firstn {A} n (l : list A) : sub (firstn n l) l.
Proof. revert n. induction l as [|x l IH]; intros [|n]; cbn; try constructor; [apply sub_empty|apply IH]. Qed.
Lemma NoDup_swap {A B} (f : A -> B) a b c : NoDup (map f (a ++ b)) -> c = a \/ c = [] -> NoDup (map f (b ++ c)).
Proof.
  intros N E. rewrite map_app in *. assert (P : NoDup (map f b ++ map f a)) by (eapply Permutation.Permutation_NoDup; [apply Permutation.Permutation_app_comm|exact N]).
  destruct E as [->| ->]; [exact P|]. cbn. rewrite app_nil_r. clear N. induction (map f b) as [|y r IH]; [constructor|]. inversion P as [|? ? P1 P2]. subst. constructor; [intros J; apply P1, in_or_app; auto|auto].
Qed.
(** All objects a session can refer to are well formed. *)
Lemma within_dates d s h x o : laws (w_se w) -> reach w (sys0 d) s -> sess_get s h = Some x -> In o (within s x) -> dates8 o.
Proof.
  intros L R X J. apply oinv_dates. apply in_app_or in J as [J|J].
  - pose proof (reach_ginv w (l_hash _ L) _ _ R) as (_ & _ & _ & _ & _ & G). rewrite Forall_forall in G. auto.
  - pose proof (reach_sinv w _ _ (l_hash _ L) R) as G. apply sess_get_in in X as (X & _). pose proof (sess_sinv _ _ G X) as G2. rewrite Forall_forall in G2. auto.
Qed.
End W2.
Theorem C21_partial w : laws (w_se w) -> forall d l s os, fresh d -> run w (sys0 d) l = Ok (s, os) -> (2 * (zlen l + 1) < 2^28)%Z ->
  Forall (fun c => odd_call (fst c)) l -> C21_good w s.
Proof.
  intros L d l s os D H M F h x t rnd s1 l2 s2 os2 X Hi Hr Du.
  assert (Fu : Forall (fun c => usual_call (fst c)) l) by (eapply Forall_impl; [|exact F]; intros c; apply odd_usual).
  destruct (run_orderly w d l 0 (sys0 d) s os (od_0 w True d (D _)) H Fu) as (m & O & Lm). pose proof (orderly_pos _ _ _ _ _ O) as P.
  pose proof (orderly_reach _ _ _ _ _ O) as R. pose proof (reach_inv w _ _ R) as I. destruct (orderly_kept w True (l_hash _ L) _ _ _ O) as [G _]; [lia|].
  destruct (good_handles w m s I G) as [_ Gh]; [lia|lia|]. destruct (Gh h x X) as [Nd Fi].
  pose proof (no_loop s (run_mark w l _ _ _ (reach_inv w _ _ (reach_0 w _)) F (fresh_marked d D) H)) as Lp. pose proof (step_inv w _ _ _ _ _ I Hi) as I1.
  destruct (init_ok _ _ _ _ _ _ _ X Hi) as (_ & b & lf & _ & Fd & E).
  assert (X1 : sess_get s1 h = Some (set_find x true lf 0)) by (rewrite E; eapply sess_get_put; [apply inv_uniq; exact I|exact X|reflexivity|reflexivity]).
  destruct (got_is w h l2 _ _ _ _ I1 X1 Hr Du) as (x2 & _ & _ & Sk). cbn [set_find ss_cur ss_found skipn] in Sk.
  apply Find_is in Fd; [|exact Lp]. set (oo := match find_last t CKA_TOKEN with None => true | Some _ => negb (b =? 0)%N end) in *.
  assert (Sb : sub lf (map o_handle (ss_objs x ++ (if oo then t_objs (s_tok s) else [])))).
  { rewrite Fd. eapply sub_trans; [|apply sub_firstn]. apply sub_map, sub_filter. }
  split.
  - assert (N : NoDup lf). { eapply NoDup_sub; [exact Sb|]. eapply NoDup_swap; [exact Nd|]. destruct oo; auto. }
    rewrite Sk in N. clear - N. induction (got h l2 os2) as [|y r IH]; [constructor|]. inversion N as [|? ? N1 N2]. subst. constructor; [intros J; apply N1, in_or_app; auto|auto].
  - intros ho J. assert (J1 : In ho lf) by (rewrite Sk; apply in_or_app; auto). rewrite Fd in J1. eapply sub_in in J1; [|apply sub_firstn]. apply in_map_iff in J1 as (o & Eo & J1). apply filter_In in J1 as [J1 Ft].
    assert (Jw : In o (within s x)). { unfold within. apply in_or_app. apply in_app_or in J1 as [J1|J1]; [auto|]. destruct oo; [auto|contradiction]. }
    exists o. split; [rewrite <- Eo; apply Fi; exact Jw|]. unfold fits in Ft. apply andb_prop in Ft as [_ Ft]. apply match_all_named; [eapply within_dates; eauto|]. destruct (match_all w o t) as [[|]| |]; try discriminate. reflexivity.
Qed.
Print Assumptions C21_partial.
(** An object created with CKA_TOKEN = 2 is put in the token's list with its one-bit
    [onToken] field clear, and the search then walks that list for ever. *)
Definition looping : list op := setup ++ [OOpenSession 1 RW; userlogin upin; OCreateObject H2 (token_is 2 aes_tmpl)].
Example looping_ok : rvs looping = repeat CKR_OK 10 /\
  skipn 10 (outs (looping ++ [OFindObjectsInit H2 []; OFindObjects H2 20])) = [OutRv CKR_OK; OutHs CKR_OK (repeat (2^29 + 1)%Z 10)].
Proof. vm_compute. split; reflexivity. Qed.
Theorem C21_refuted : ~ C21_claim tw.
Proof.
  intros C. destruct (hist looping) as [[s os]| |] eqn:E; [|vm_compute in E; discriminate..].
  pose proof (hist_run _ _ _ E) as R. assert (G : C21_good tw s).
  { eapply (C toy_laws nofiles _ s os); [intros f; reflexivity|exact R|vm_compute; reflexivity|].
    assert (forallb (fun c => usualb (fst c)) (numbered 1 looping) = true) by (vm_compute; reflexivity). rewrite Forall_forall. intros c J. apply usualb_ok. rewrite forallb_forall in H. auto. }
  destruct (sess_get s H2) as [x|] eqn:X; [|clear - E X; vm_compute in E; injection E as <- _; vm_compute in X; discriminate].
  destruct (step tw (rnd 0) s (OFindObjectsInit H2 [])) as [[s1 o]| |] eqn:E1; [|clear - E E1; vm_compute in E; injection E as <- _; vm_compute in E1; discriminate..].
  assert (Eo : o = OutRv CKR_OK) by (clear - E E1; vm_compute in E; injection E as <- _; vm_compute in E1; injection E1 as _ <-; reflexivity). subst o.
  destruct (step tw (rnd 0) s1 (OFindObjects H2 2)) as [[s2 o]| |] eqn:E2; [|clear - E E1 E2; vm_compute in E; injection E as <- _; vm_compute in E1; injection E1 as <-; vm_compute in E2; discriminate..].
  assert (Eo : o = OutHs CKR_OK [2^29 + 1; 2^29 + 1]%Z) by (clear - E E1 E2; vm_compute in E; injection E as <- _; vm_compute in E1; injection E1 as <-; vm_compute in E2; injection E2 as _ <-; reflexivity). subst o.
  destruct (G H2 x [] (rnd 0) s1 [(OFindObjects H2 2, rnd 0)] s2 [OutHs CKR_OK [2^29 + 1; 2^29 + 1]%Z] X E1) as [N _].
  - cbn [run]. rewrite E2. reflexivity.
  - constructor; [right; eexists; reflexivity|constructor].
  - cbn in N. inversion N as [|? ? N1 _]. apply N1. left. reflexivity.
Qed.
Print Assumptions C21_refuted.
(** A history within [C21_partial]: two token keys and three session keys, searched by identifier and by a boolean. *)
Definition mixed : list op := three ++ [OCreateObject H2 (tokenly (mkA CKA_ID (AV [1%N]) :: mkA CKA_SIGN TRUE :: aes_tmpl)); OCreateObject H2 (tokenly (mkA CKA_ID (AV [9%N]) :: aes_tmpl))].
Example C21_case : rvs mixed = repeat CKR_OK 14 /\ forallb (fun c => usualb c) mixed = true /\
  skipn 14 (outs (mixed ++ [OFindObjectsInit H2 [mkA CKA_ID (AV [1%N])]; OFindObjects H2 20])) = [OutRv CKR_OK; OutHs CKR_OK [1; 2^28 + 1]]%Z /\
  skipn 14 (outs (mixed ++ [OFindObjectsInit H2 [mkA CKA_SIGN TRUE; mkA CKA_CLASS (ULONG CKO_SECRET_KEY)]; OFindObjects H2 20])) = [OutRv CKR_OK; OutHs CKR_OK [2^28 + 1]]%Z.
Proof. vm_compute. repeat split; reflexivity. Qed.

(** ** C22: search results are complete *)
(** CKA_PRIVATE of an object, as set by its template (it cannot be read back). *)
Definition private (o : obj) : Prop := Z.land (o_flag o) FL_PRIVATE <> 0%Z.
(** The session may see the object. *)
Definition sees (s : sys) (o : obj) : Prop := t_login (s_tok s) = RW_USER \/ ~ private o.
(** A template in memory: no value of 2^63 bytes or more. *)
Definition real (t : template) : Prop := Forall (fun a => a_len a < 2^63)%Z t.
Definition C22_good (w : world) (s : sys) (can : obj -> template -> session -> Prop) : Prop :=
  forall h x t rnd s1 l s2 os n rnd2 s3 r o, sess_get s h = Some x -> real t -> step w rnd s (OFindObjectsInit h t) = Ok (s1, OutRv CKR_OK) ->
    run w s1 l = Ok (s2, os) -> Forall (fun c => during h (fst c)) l ->
    step w rnd2 s2 (OFindObjects h n) = Ok (s3, OutHs CKR_OK r) -> (0 <= n < 2^31)%Z -> (zlen r < n)%Z ->
    In o (within s x) -> Forall (named (w_oe w) o) t -> can o t x -> In (o_handle o) (got h l os ++ r).
Definition C22_claim (w : world) : Prop :=
  laws (w_se w) -> forall d l s os, fresh d -> run w (sys0 d) l = Ok (s, os) -> (2 * (zlen l + 1) < 2^28)%Z -> Forall (fun c => odd_call (fst c)) l ->
  C22_good w s (fun o _ _ => sees s o).
(** What is enough for the code: a user is logged in or a usage attribute is true, the key is
    not in its encrypted form, and no more than ten objects match. *)
Definition findable (w : world) (s : sys) (o : obj) (t : template) (x : session) : Prop :=
  (t_login (s_tok s) = RW_USER \/ exists ty, In ty usage_attrs /\ api_reads (w_oe w) o ty [1%N]) /\ o_enc o = false /\
  forall M, NoDup M -> (forall y, In y M -> In y (within s x) /\ Forall (named (w_oe w) y) t) -> length M <= 10.

Section W3.
Variable w : world.
Notation oe := (w_oe w).
Lemma reads_bool o ty c v : (forall buf, GetAttr oe o ty buf = Ok (get_bool c buf)) -> api_reads oe o ty [v] -> v = if c then 1%N else 0%N.
Proof.
  intros G R. destruct (reads_get oe o ty [v] [5%N] R eq_refl) as (l & q & E & P). rewrite G in E. unfold get_bool, get_data in E. cbn in E. injection E as <- <-. cbn in P. injection P as <-. reflexivity.
Qed.
Lemma usage_seen o ty : In ty usage_attrs -> api_reads oe o ty [1%N] -> (Z.lor (o_opFlag o) FL_PRIVATE =? FL_PRIVATE)%Z = false.
Proof.
  intros U R. destruct (Z.eqb_spec (Z.lor (o_opFlag o) FL_PRIVATE) FL_PRIVATE) as [E|]; [exfalso|reflexivity].
  assert (K : exists f, get_flag_of ty = Some f /\ Z.land f FL_PRIVATE <> f) by (cbn in U; repeat (destruct U as [<-|U]; [vm_compute; eexists; split; [reflexivity|discriminate]|]); contradiction).
  destruct K as (f & F & N). assert (G : forall buf, GetAttr oe o ty buf = Ok (get_bool (has_flag (o_opFlag o) f) buf)) by (intros buf; unfold GetAttr; rewrite F; reflexivity).
  apply (reads_bool _ _ _ _ G) in R. destruct (has_flag (o_opFlag o) f) eqn:H; [|discriminate]. unfold has_flag in H. apply Z.eqb_eq in H. apply N.
  rewrite <- H at 2. rewrite <- E. rewrite Z.land_lor_distr_r. rewrite <- H at 1 2. apply Z.bits_inj'. intros n _. rewrite !Z.lor_spec, !Z.land_spec. destruct (Z.testbit (o_opFlag o) n), (Z.testbit f n), (Z.testbit FL_PRIVATE n) eqn:?; try reflexivity.
Qed.
Lemma token_named o t b : Forall (named oe o) t -> find_last t CKA_TOKEN <> None -> tmpl_token t = Some b -> b = if o_onTok o then 1%N else 0%N.
Proof.
  intros F N T. unfold tmpl_token in T. destruct (find_last t CKA_TOKEN) as [a|] eqn:L; [|contradiction]. apply last_in in L as [L Ty]. rewrite Forall_forall in F. destruct (F _ L) as (v & A & _ & R).
  unfold asked in A. destruct (a_val a) as [[|b0 [|? ?]]| |] eqn:Av; try discriminate. injection T as ->. injection A as <-. destruct R as [R|R]; [discriminate|]. rewrite Ty in R.
  eapply reads_bool; [|exact R]. intros buf. reflexivity.
Qed.
End W3.
Lemma NoDup_of_map {A B} (f : A -> B) l : NoDup (map f l) -> NoDup l.
Proof. induction l as [|x l IH]; intros N; [constructor|]. inversion N as [|? ? N1 N2]. subst. constructor; [intros J; apply N1, in_map, J|auto]. Qed.
Theorem C22_partial w : laws (w_se w) -> forall d l s os, fresh d -> run w (sys0 d) l = Ok (s, os) -> (2 * (zlen l + 1) < 2^28)%Z ->
  Forall (fun c => odd_call (fst c)) l -> C22_good w s (findable w s).
Proof.
  intros L d l s os D H M F h x t rnd s1 l2 s2 os2 n rnd2 s3 r o X Re Hi Hr Du Hn Bn Sh J Nm (Vi & En & Ten).
  assert (Fu : Forall (fun c => usual_call (fst c)) l) by (eapply Forall_impl; [|exact F]; intros c; apply odd_usual).
  destruct (run_orderly w d l 0 (sys0 d) s os (od_0 w True d (D _)) H Fu) as (m & O & Lm). pose proof (orderly_pos _ _ _ _ _ O) as P.
  pose proof (orderly_reach _ _ _ _ _ O) as R. pose proof (reach_inv w _ _ R) as I. destruct (orderly_kept w True (l_hash _ L) _ _ _ O) as [G _]; [lia|].
  destruct (good_handles w m s I G) as [_ Gh]; [lia|lia|]. destruct (Gh h x X) as [Nd _]. pose proof (run_mark w l _ _ _ (reach_inv w _ _ (reach_0 w _)) F (fresh_marked d D) H) as Mk.
  destruct (C23_partial w d s h t rnd s1 R Hi) as (L0 & Pi). destruct (Pi l2 s2 os2 Hr Du) as [_ Pi2]. destruct (Pi2 n rnd2 s3 r Bn Hn) as [_ Pi3]. rewrite <- (Pi3 Sh).
  destruct (init_ok _ _ _ _ _ _ _ X Hi) as (_ & b & lf & Tb & Fd & E). pose proof (step_inv w _ _ _ _ _ I Hi) as I1.
  assert (X1 : sess_get s1 h = Some (set_find x true lf 0)) by (rewrite E; eapply sess_get_put; [apply inv_uniq; exact I|exact X|reflexivity|reflexivity]).
  assert (Ll : L0 = lf).
  { rewrite (Pi3 Sh). destruct (got_is w h l2 _ _ _ _ I1 X1 Hr Du) as (x2 & X2 & Fo & Sk). cbn [set_find ss_cur ss_found skipn] in *. rewrite Sk. f_equal.
    assert (I2 : inv s2). { clear - I1 Hr. revert s1 os2 I1 Hr. induction l2 as [|[c rn] l IH]; intros s1 os I1 Rn; cbn [run] in Rn; [injection Rn as <- _; exact I1|].
    destruct (step _ _ _ _) as [[s' o']| |] eqn:E; cbn [bind] in Rn; try discriminate. destruct (run _ _ _) as [[s4 os4]| |] eqn:Q; cbn [bind] in Rn; try discriminate. injection Rn as <- _. eapply IH; [|exact Q]. eapply step_inv; eauto. }
    destruct (next_out _ _ _ _ _ _ _ _ (sess_count _ _ _ I2 X2) X2 Hn) as (r' & Er & Rr & _). injection Er as <-. rewrite Fo, CodecProofs.i32_id in Rr by lia. cbn [set_find ss_found] in Rr. rewrite Rr.
    apply firstn_all2. unfold zlen in Sh. rewrite Rr in Sh. rewrite firstn_length in Sh. lia. }
  rewrite Ll. clear Pi Pi2 Pi3 Ll. apply Find_is in Fd; [|apply no_loop; exact Mk]. set (oo := match find_last t CKA_TOKEN with None => true | Some _ => negb (b =? 0)%N end) in *. rewrite Fd.
  set (fl := filter _ _) in *.
  assert (Bo : In o (ss_objs x ++ (if oo then t_objs (s_tok s) else []))).
  { unfold within in J. apply in_or_app. apply in_app_or in J as [J|J]; [|auto]. right. unfold oo. destruct (find_last t CKA_TOKEN) as [a|] eqn:Fl; [|exact J].
    rewrite (token_named w o t b Nm); [|congruence|apply Tb; discriminate]. destruct Mk as [Mk _]. rewrite Forall_forall in Mk. rewrite (Mk o J). exact J. }
  assert (Io : In o fl).
  { apply filter_In. split; [exact Bo|]. unfold fits. rewrite (named_match_all w o t (within_dates w d s h x o L R X J) Re Nm). rewrite andb_true_r. unfold visible. rewrite En. cbn [negb andb].
    destruct Vi as [V|(ty & U & V)]; [rewrite V; change (orb (RW_USER =? RW_PUBLIC)%Z (RW_USER =? RO_PUBLIC)%Z) with false; rewrite andb_false_r; reflexivity|]. rewrite (usage_seen w o ty U V). reflexivity. }
  assert (Nf : NoDup fl). { eapply NoDup_sub; [apply sub_filter|]. eapply NoDup_of_map. eapply NoDup_swap; [exact Nd|]. destruct oo; auto. }
  rewrite firstn_all2; [apply in_map; exact Io|]. rewrite map_length. apply Ten; [exact Nf|]. intros y Jy. apply filter_In in Jy as [Jy Ft].
  assert (Jw : In y (within s x)). { unfold within. apply in_or_app. apply in_app_or in Jy as [Jy|Jy]; [auto|]. destruct oo; [auto|contradiction]. }
  split; [exact Jw|]. unfold fits in Ft. apply andb_prop in Ft as [_ Ft]. apply match_all_named; [eapply within_dates; eauto|]. destruct (match_all w y t) as [[|]| |]; try discriminate. reflexivity.
Qed.
Print Assumptions C22_partial.
(** Six keys in the session and six on the token, the user logged in: the oldest two are never found. *)
Definition dozen : list op := setup ++ [OOpenSession 1 RW; userlogin upin] ++ map an_aes [1; 2; 3; 4; 5; 6]%N ++ repeat (OCreateObject H2 (tokenly aes_tmpl)) 6.
Definition ten : list Z := [6; 5; 4; 3; 2; 1; 2^28 + 6; 2^28 + 5; 2^28 + 4; 2^28 + 3]%Z.
Example dozen_ok : rvs dozen = repeat CKR_OK 21 /\
  skipn 21 (outs (dozen ++ [OFindObjectsInit H2 []; OFindObjects H2 20; OFindObjects H2 20])) = [OutRv CKR_OK; OutHs CKR_OK ten; OutHs CKR_OK []].
Proof. vm_compute. split; reflexivity. Qed.
(** Both a byte check for histories and the odd-byte condition. *)
Definition oddb (c : op) : bool :=
  forallb (forallb (fun a => negb (andb (a_type a =? CKA_TOKEN)%Z (match a_val a with AV [b] => negb (andb (b <? 256)%N (orb (b =? 0)%N (N.odd b))) | _ => false end)))) (templates c).
Lemma oddb_ok c : oddb c = true -> odd_call c.
Proof.
  unfold oddb. intros H t b T I. rewrite forallb_forall in H. specialize (H t T). rewrite forallb_forall in H. specialize (H _ I). cbn [a_type a_val] in H.
  rewrite Z.eqb_refl in H. cbn [andb] in H. rewrite negb_involutive in H. apply andb_prop in H as [A B]. apply N.ltb_lt in A. split; [exact A|]. apply orb_prop in B as [B|B]; [left; apply N.eqb_eq; exact B|right; exact B].
Qed.
Lemma odd_hist l : forallb oddb l = true -> Forall (fun c => odd_call (fst c)) (numbered 1 l).
Proof.
  generalize 1%N. induction l as [|c l IH]; intros k H; cbn [numbered]; [constructor|]. cbn in H. apply andb_prop in H as [A B]. constructor; [apply oddb_ok; exact A|apply IH; exact B].
Qed.
Theorem C22_refuted : ~ C22_claim tw.
Proof.
  intros C. destruct (hist dozen) as [[s os]| |] eqn:E; [|vm_compute in E; discriminate..]. pose proof (hist_run _ _ _ E) as R.
  assert (G : C22_good tw s (fun o _ _ => sees s o)) by (eapply (C toy_laws nofiles _ s os); [intros f; reflexivity|exact R|vm_compute; reflexivity|apply odd_hist; vm_compute; reflexivity]). clear C R.
  assert (U : t_login (s_tok s) = RW_USER) by (clear - E; vm_compute in E; injection E as <- _; reflexivity).
  assert (N : match sess_get s H2 with Some x => existsb (fun o => (o_handle o =? 2^28 + 1)%Z) (within s x) | None => false end = true) by (clear - E; vm_compute in E; injection E as <- _; vm_compute; reflexivity).
  destruct (sess_get s H2) as [x|] eqn:X; [|discriminate N]. apply existsb_exists in N as (o & J & N). apply Z.eqb_eq in N.
  destruct (step tw (rnd 0) s (OFindObjectsInit H2 [])) as [[s1 o1]| |] eqn:E1; [|clear - E E1; vm_compute in E; injection E as <- _; vm_compute in E1; discriminate..].
  assert (Eo : o1 = OutRv CKR_OK) by (clear - E E1; vm_compute in E; injection E as <- _; vm_compute in E1; injection E1 as _ <-; reflexivity). subst o1.
  destruct (step tw (rnd 0) s1 (OFindObjects H2 20)) as [[s2 o2]| |] eqn:E2; [|clear - E E1 E2; vm_compute in E; injection E as <- _; vm_compute in E1; injection E1 as <-; vm_compute in E2; discriminate..].
  assert (Eo : o2 = OutHs CKR_OK ten) by (clear - E E1 E2; vm_compute in E; injection E as <- _; vm_compute in E1; injection E1 as <-; vm_compute in E2; injection E2 as _ <-; reflexivity). subst o2. clear E.
  assert (K : In (o_handle o) ([] ++ ten)).
  { apply (G H2 x [] (rnd 0) s1 [] s1 [] 20%Z (rnd 0) s2 ten o X); [constructor|exact E1|reflexivity|constructor|exact E2|lia|unfold zlen; cbn; lia|exact J|constructor|left; exact U]. }
  rewrite N in K. cbn in K. repeat (destruct K as [K|K]; [discriminate K|]). exact K.
Qed.
Print Assumptions C22_refuted.
(** Within [C22_partial]: five keys, three of them with the same identifier. *)
Example C22_case : forallb oddb mixed = true /\
  skipn 14 (outs (mixed ++ [OFindObjectsInit H2 [mkA CKA_CLASS (ULONG CKO_SECRET_KEY)]; OFindObjects H2 4; OFindObjects H2 4])) = [OutRv CKR_OK; OutHs CKR_OK [3; 2; 1; 2^28 + 2]; OutHs CKR_OK [2^28 + 1]]%Z.
Proof. vm_compute. repeat split; reflexivity. Qed.

(** ** C24: private objects are invisible and unusable without user login *)
Definition C24_find_good (w : world) (s : sys) (hidden : obj -> Prop) : Prop :=
  forall h x t rnd s1 l s2 os o, sess_get s h = Some x -> step w rnd s (OFindObjectsInit h t) = Ok (s1, OutRv CKR_OK) ->
    run w s1 l = Ok (s2, os) -> Forall (fun c => during h (fst c)) l -> In o (within s x) -> hidden o -> ~ In (o_handle o) (got h l os).
(** No cryptographic operation can be started with the object. *)
Definition C24_use_good (w : world) (s : sys) (hidden : obj -> Prop) : Prop :=
  forall h x o c rnd s1 r, sess_get s h = Some x -> In o (within s x) -> hidden o -> init_kind c <> None ->
    step w rnd s (OCrypto h c (o_handle o)) = Ok (s1, OutC r) -> o_rv r <> CKR_OK.
Definition hist_24 (w : world) (s : sys) : Prop :=
  laws (w_se w) /\ exists d l os, fresh d /\ run w (sys0 d) l = Ok (s, os) /\ (2 * (zlen l + 1) < 2^28)%Z /\ Forall (fun c => odd_call (fst c)) l.
Definition C24_find_claim (w : world) : Prop := forall s, hist_24 w s -> t_login (s_tok s) <> RW_USER -> C24_find_good w s private.
Definition C24_use_claim (w : world) : Prop := forall s, hist_24 w s -> t_login (s_tok s) <> RW_USER -> C24_use_good w s private.
(** What does hold: with nobody logged in, objects without any usage flag, and token keys
    still in their encrypted form, are not found. *)
Theorem C24_find_partial w s : hist_24 w s -> (t_login (s_tok s) = RW_PUBLIC \/ t_login (s_tok s) = RO_PUBLIC) ->
  C24_find_good w s (fun o => o_opFlag o = 0%Z \/ o_enc o = true).
Proof.
  intros (L & d & l & os & D & H & M & F) Pu h x t rnd s1 l2 s2 os2 o X Hi Hr Du J Hid K.
  assert (Fu : Forall (fun c => usual_call (fst c)) l) by (eapply Forall_impl; [|exact F]; intros c; apply odd_usual).
  destruct (run_orderly w d l 0 (sys0 d) s os (od_0 w True d (D _)) H Fu) as (m & O & Lm). pose proof (orderly_pos _ _ _ _ _ O) as P.
  pose proof (orderly_reach _ _ _ _ _ O) as R. pose proof (reach_inv w _ _ R) as I. destruct (orderly_kept w True (l_hash _ L) _ _ _ O) as [G _]; [lia|].
  destruct (good_handles w m s I G) as [_ Gh]; [lia|lia|]. destruct (Gh h x X) as [_ Fi].
  pose proof (no_loop s (run_mark w l _ _ _ (reach_inv w _ _ (reach_0 w _)) F (fresh_marked d D) H)) as Lp. pose proof (step_inv w _ _ _ _ _ I Hi) as I1.
  destruct (init_ok _ _ _ _ _ _ _ X Hi) as (_ & b & lf & _ & Fd & E).
  assert (X1 : sess_get s1 h = Some (set_find x true lf 0)) by (rewrite E; eapply sess_get_put; [apply inv_uniq; exact I|exact X|reflexivity|reflexivity]).
  destruct (got_is w h l2 _ _ _ _ I1 X1 Hr Du) as (x2 & _ & _ & Sk). cbn [set_find ss_cur ss_found skipn] in Sk.
  apply Find_is in Fd; [|exact Lp]. set (oo := match find_last t CKA_TOKEN with None => true | Some _ => negb (b =? 0)%N end) in *.
  assert (J1 : In (o_handle o) lf) by (rewrite Sk; apply in_or_app; auto). rewrite Fd in J1. eapply sub_in in J1; [|apply sub_firstn]. apply in_map_iff in J1 as (o' & Eo & J1). apply filter_In in J1 as [J1 Ft].
  assert (Jw : In o' (within s x)). { unfold within. apply in_or_app. apply in_app_or in J1 as [J1|J1]; [auto|]. destruct oo; [auto|contradiction]. }
  assert (o' = o). { pose proof (Fi _ J) as A1. pose proof (Fi _ Jw) as A2. rewrite Eo in A2. congruence. } subst o'.
  unfold fits in Ft. apply andb_prop in Ft as [Ft _]. unfold visible in Ft. apply andb_prop in Ft as [Ft1 Ft2]. destruct Hid as [Z|Z]; [|rewrite Z in Ft1; discriminate].
  rewrite Z in Ft2. destruct Pu as [Q|Q]; rewrite Q in Ft2; vm_compute in Ft2; discriminate.
Qed.
Print Assumptions C24_find_partial.
(** A private AES key that may encrypt, created and used with nobody logged in. *)
Definition priv_tmpl : template := mkA CKA_PRIVATE TRUE :: mkA CKA_ENCRYPT TRUE :: aes_tmpl.
Definition nobody : list op := setup ++ [OOpenSession 1 RW; OCreateObject H2 priv_tmpl; OCreateObject H2 aes_tmpl].
Definition cbc_init : call := KEncryptInit M_AES_CBC_PAD (MPraw (repeat 0%N 16)) 0.
Example nobody_ok : rvs nobody = repeat CKR_OK 10 /\
  skipn 10 (outs (nobody ++ [OFindObjectsInit H2 []; OFindObjects H2 20; OFindObjectsFinal H2; OCrypto H2 cbc_init 1; OCrypto H2 (KEncrypt [] [1; 2; 3]%N (Buf 64)) 0])) =
  [OutRv CKR_OK; OutHs CKR_OK [1%Z]; OutRv CKR_OK; OutC (mkOut CKR_OK 0 []); OutC (mkOut CKR_OK 16 (repeat 10 13 ++ [4; 5; 6])%N)].
Proof. vm_compute. split; reflexivity. Qed.
Lemma nobody_hist s os : hist nobody = Ok (s, os) -> hist_24 tw s.
Proof.
  intros E. split; [apply toy_laws|]. exists nofiles, (numbered 1 nobody), os. split; [intros f; reflexivity|]. split; [exact (hist_run _ _ _ E)|].
  split; [vm_compute; reflexivity|]. apply odd_hist. vm_compute. reflexivity.
Qed.
Theorem C24_find_refuted : ~ C24_find_claim tw.
Proof.
  intros C. destruct (hist nobody) as [[s os]| |] eqn:E; [|vm_compute in E; discriminate..]. specialize (C s (nobody_hist _ _ E)).
  assert (U : t_login (s_tok s) <> RW_USER) by (clear - E; vm_compute in E; injection E as <- _; vm_compute; discriminate). specialize (C U). clear U.
  assert (N : match sess_get s H2 with Some x => existsb (fun o => andb (o_handle o =? 1)%Z (negb (Z.land (o_flag o) FL_PRIVATE =? 0)%Z)) (within s x) | None => false end = true) by (clear - E; vm_compute in E; injection E as <- _; vm_compute; reflexivity).
  destruct (sess_get s H2) as [x|] eqn:X; [|discriminate N]. apply existsb_exists in N as (o & J & N). apply andb_prop in N as [N Q]. apply Z.eqb_eq in N. apply negb_true_iff, Z.eqb_neq in Q.
  destruct (step tw (rnd 0) s (OFindObjectsInit H2 [])) as [[s1 o1]| |] eqn:E1; [|clear - E E1; vm_compute in E; injection E as <- _; vm_compute in E1; discriminate..].
  assert (Eo : o1 = OutRv CKR_OK) by (clear - E E1; vm_compute in E; injection E as <- _; vm_compute in E1; injection E1 as _ <-; reflexivity). subst o1.
  destruct (step tw (rnd 0) s1 (OFindObjects H2 20)) as [[s2 o2]| |] eqn:E2; [|clear - E E1 E2; vm_compute in E; injection E as <- _; vm_compute in E1; injection E1 as <-; vm_compute in E2; discriminate..].
  assert (Eo : o2 = OutHs CKR_OK [1%Z]) by (clear - E E1 E2; vm_compute in E; injection E as <- _; vm_compute in E1; injection E1 as <-; vm_compute in E2; injection E2 as _ <-; reflexivity). subst o2. clear E.
  apply (C H2 x [] (rnd 0) s1 [(OFindObjects H2 20, rnd 0)] s2 [OutHs CKR_OK [1%Z]] o X E1); [cbn [run]; rewrite E2; reflexivity|constructor; [right; eexists; reflexivity|constructor]|exact J|exact Q|].
  rewrite N. left. reflexivity.
Qed.
Print Assumptions C24_find_refuted.
Theorem C24_use_refuted : ~ C24_use_claim tw.
Proof.
  intros C. destruct (hist nobody) as [[s os]| |] eqn:E; [|vm_compute in E; discriminate..]. specialize (C s (nobody_hist _ _ E)).
  assert (U : t_login (s_tok s) <> RW_USER) by (clear - E; vm_compute in E; injection E as <- _; vm_compute; discriminate). specialize (C U). clear U.
  assert (N : match sess_get s H2 with Some x => existsb (fun o => andb (o_handle o =? 1)%Z (negb (Z.land (o_flag o) FL_PRIVATE =? 0)%Z)) (within s x) | None => false end = true) by (clear - E; vm_compute in E; injection E as <- _; vm_compute; reflexivity).
  destruct (sess_get s H2) as [x|] eqn:X; [|discriminate N]. apply existsb_exists in N as (o & J & N). apply andb_prop in N as [N Q]. apply Z.eqb_eq in N. apply negb_true_iff, Z.eqb_neq in Q.
  destruct (step tw (rnd 0) s (OCrypto H2 cbc_init 1)) as [[s1 o1]| |] eqn:E1; [|clear - E E1; vm_compute in E; injection E as <- _; vm_compute in E1; discriminate..].
  assert (Eo : o1 = OutC (mkOut CKR_OK 0 [])) by (clear - E E1; vm_compute in E; injection E as <- _; vm_compute in E1; injection E1 as _ <-; reflexivity). subst o1. rewrite <- N in E1.
  apply (C H2 x o cbc_init (rnd 0) s1 _ X J Q) in E1; [apply E1; reflexivity|discriminate].
Qed.
Print Assumptions C24_use_refuted.
(** Within [C24_find_partial]: the second key of [nobody] has no usage flag and is not found, although it is not private. *)
Example C24_case : skipn 10 (outs (nobody ++ [OFindObjectsInit H2 []; OFindObjects H2 20; OFindObjectsFinal H2; userlogin upin; OFindObjectsInit H2 []; OFindObjects H2 20])) =
  [OutRv CKR_OK; OutHs CKR_OK [1]; OutRv CKR_OK; OutRv CKR_OK; OutRv CKR_OK; OutHs CKR_OK [2; 1]]%Z.
Proof. vm_compute. reflexivity. Qed.

(** ** C60, for C_FindObjectsInit *)
(** A search that C_FindObjectsInit refuses does not become active. *)
Definition C60_find_claim (w : world) : Prop :=
  forall d s h t rnd s1 rv x x1, reach w (sys0 d) s -> step w rnd s (OFindObjectsInit h t) = Ok (s1, OutRv rv) -> rv <> CKR_OK ->
    sess_get s h = Some x -> sess_get s1 h = Some x1 -> ss_find x1 = ss_find x.
(** True unless the template has a CKA_TOKEN entry that is not one byte; then nothing at all changes. *)
Theorem C60_find_partial w rnd s h t s1 o : tmpl_token t <> None -> step w rnd s (OFindObjectsInit h t) = Ok (s1, o) -> o <> OutRv CKR_OK -> s1 = s.
Proof.
  intros N H Q. cbn [step] in H. unfold with_sess, need_lib in H. destruct (0 <? s_count s)%Z; [|unfold rv_ in H; injection H as <- _; reflexivity].
  destruct (sess_get s h) as [x|]; [|unfold rv_ in H; injection H as <- _; reflexivity]. unfold FindInit in H. destruct (ss_find x); [unfold rv_ in H; injection H as <- _; reflexivity|]. cbv zeta in H.
  destruct (find_last t CKA_TOKEN); [destruct (tmpl_token t) as [b|]; [|contradiction]|]; (destruct (Find _ _ _ _ _) as [l| |]; cbn [bind] in H; [|discriminate..]); unfold rv_ in H; injection H as _ <-; exfalso; apply Q; reflexivity.
Qed.
Print Assumptions C60_find_partial.
Definition two_bytes : template := [mkA CKA_TOKEN (AV [1; 1]%N)].
Example refused_find : skipn 12 (outs (three ++ [OFindObjectsInit H2 two_bytes; OFindObjectsInit H2 []; OFindObjectsFinal H2; OFindObjectsInit H2 []; OFindObjectsInit H2 []])) =
  [OutRv CKR_ATTRIBUTE_VALUE_INVALID; OutRv CKR_OPERATION_ACTIVE; OutRv CKR_OK; OutRv CKR_OK; OutRv CKR_OPERATION_ACTIVE].
Proof. vm_compute. reflexivity. Qed.
Theorem C60_find_refuted : ~ C60_find_claim tw.
Proof.
  intros C. assert (R : reach tw (sys0 nofiles) (after three)) by (apply after_reach; vm_compute; exact Logic.I).
  destruct (step tw (rnd 0) (after three) (OFindObjectsInit H2 two_bytes)) as [[s1 o1]| |] eqn:E1; [|vm_compute in E1; discriminate..].
  assert (Eo : o1 = OutRv CKR_ATTRIBUTE_VALUE_INVALID) by (vm_compute in E1; injection E1 as _ <-; reflexivity). subst o1.
  destruct (sess_get (after three) H2) as [x|] eqn:X; [|vm_compute in X; discriminate].
  destruct (sess_get s1 H2) as [x1|] eqn:X1; [|clear - E1 X1; vm_compute in E1; injection E1 as <-; vm_compute in X1; discriminate].
  assert (F : ss_find x = false) by (clear - X; vm_compute in X; injection X as <-; reflexivity).
  assert (F1 : ss_find x1 = true) by (clear - E1 X1; vm_compute in E1; injection E1 as <-; vm_compute in X1; injection X1 as <-; reflexivity).
  specialize (C nofiles _ _ _ _ _ _ _ _ R E1 ltac:(discriminate) X X1). rewrite F, F1 in C. discriminate C.
Qed.
Print Assumptions C60_find_refuted.
