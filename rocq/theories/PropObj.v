(** Object properties: C14, C15, C16. *)
From Verif Require Import Base Codec Ops ToyEnv Object PropObject Store StoreSpec Sys SysProofs SysProofs2 SysProofs3 SysProofs4
  WfProofs ToySys PropStore PropStore2 ObjFrame ObjProofs HandleProofs QuotaProofs DiskHandles.

(** ** C14: object handles identify live objects uniquely *)
(** The objects a session can refer to. *)
Definition within (s : sys) (x : session) : list obj := t_objs (s_tok s) ++ ss_objs x.
(** The handles of the objects created by a successful call. *)
Definition new_handles (o : out) : list Z :=
  match o with
  | OutH rv h => if (rv =? CKR_OK)%Z then [h] else []
  | OutH2 rv h1 h2 => if (rv =? CKR_OK)%Z then [h1; h2] else []
  | _ => []
  end.
(** [calls]: the calls considered next. *)
Definition handles_good (w : world) (calls : op -> Prop) (s : sys) : Prop :=
  (forall h x, sess_get s h = Some x -> NoDup (map o_handle (within s x)) /\ forall o, In o (within s x) -> find_obj s x (o_handle o) = Some o) /\
  (forall rnd c s' o h, calls c -> step w rnd s c = Ok (s', o) -> objop c = Some h -> NoDup (new_handles o) /\
     forall ho, In ho (new_handles o) -> exists x' ob, sess_get s' h = Some x' /\ find_obj s' x' ho = Some ob /\ o_handle ob = ho /\ ~ In (o_uid ob) (uids (live s))).
(** At most two handles are used by a call. *)
Definition C14_claim (w : world) : Prop :=
  laws (w_se w) -> forall d l s os, d (F_TOKEN, 0%nat) = None -> run w (sys0 d) l = Ok (s, os) -> (2 * (zlen l + 1) < 2^28)%Z -> handles_good w (fun _ => True) s.

(** Proved when CKA_TOKEN is a byte that is 0 or not a multiple of 16. *)
Definition usual (b : N) : Prop := (b < 256)%N /\ (b = 0%N \/ (b mod 16 <> 0)%N).
Definition usual_call (c : op) : Prop := forall t b, In t (templates c) -> In (mkA CKA_TOKEN (AV [b])) t -> usual b.
Lemma last_in t ty a : find_last t ty = Some a -> In a t /\ a_type a = ty.
Proof.
  unfold find_last. intros H. apply find_some in H as [A B]. split; [apply in_rev; exact A|lia].
Qed.
Lemma usual_bytes c : usual_call c -> bytes_ok True c.
Proof.
  intros U t b I T. unfold tmpl_token in T. destruct (find_last t CKA_TOKEN) as [[ty v]|] eqn:F; [|injection T as <-; split; [lia|auto]].
  cbn in T. destruct v as [[|b1 [|? ?]]| |]; try discriminate. injection T as ->. apply last_in in F as [F E]. cbn in E. subst ty.
  destruct (U t b I F) as [A B]. split; [exact A|intros _; exact B].
Qed.
Lemma uses_two c : (uses c <= 2)%Z.
Proof. destruct c; cbv [uses zlen templates length]; lia. Qed.
Lemma run_orderly w d l : forall m s s' os, orderly w True d m s -> run w s l = Ok (s', os) -> Forall (fun c => usual_call (fst c)) l ->
  exists m', orderly w True d m' s' /\ (m' <= m + 2 * zlen l)%Z.
Proof.
  induction l as [|[c rnd] l IH]; intros m s s' os O H F; cbn [run] in H.
  - injection H as <- _. exists m. split; [exact O|unfold zlen; cbn; lia].
  - destruct (step _ _ _ _) as [[s1 o1]| |] eqn:E; cbn [bind] in H; try discriminate. destruct (run _ _ _) as [[s2 os2]| |] eqn:R; cbn [bind] in H; try discriminate. injection H as <- _.
    inversion F as [|? ? F1 F2]. subst. destruct (IH (m + uses c)%Z s1 s2 os2) as (m' & A & B); [econstructor; [exact O|exact E|apply usual_bytes; exact F1]|exact R|exact F2|].
    exists m'. split; [exact A|]. pose proof (uses_two c). unfold zlen in *. cbn [length]. lia.
Qed.
Lemma nodup_by {A} (f : A -> nat) (g : A -> Z) (l : list A) : NoDup (map f l) -> (forall a b, In a l -> In b l -> g a = g b -> a = b) -> NoDup (map g l).
Proof.
  induction l as [|x l IH]; cbn; intros N J; [constructor|]. inversion N as [|? ? N1 N2]. subst. constructor; [|apply IH; auto].
  intros I. apply in_map_iff in I as (y & E & Y). assert (y = x) by (apply J; auto). subst y. apply N1. apply in_map. exact Y.
Qed.
Lemma within_nodup s h x : inv s -> sess_get s h = Some x -> NoDup (map o_uid (within s x)).
Proof.
  intros I E. assert (S : sub (within s x) (live s)).
  { apply sess_get_in in E as (X & _). unfold within, live. 
    assert (A : sub (ss_objs x) (all_objs (s_sess s))).
    { induction (s_sess s) as [|z l IH]; [contradiction|]. cbn [all_objs]. destruct X as [->|X].
      - clear. induction (ss_objs x) as [|a r IH]; cbn; [apply sub_empty|constructor; exact IH].
      - specialize (IH X). induction (ss_objs z) as [|a r IHr]; cbn; [exact IH|constructor; exact IHr]. }
    induction (t_objs (s_tok s)) as [|a r IHr]; cbn; [exact A|constructor; exact IHr]. }
  destruct I as (_ & _ & [N _] & _). unfold uids in N. clear - N S. induction S as [|a l l' S IH|a l l' S IH]; cbn in *; [constructor| |].
  - inversion N as [|? ? A B]. subst. constructor; [|auto]. intros J. apply A. eapply sub_in; [apply sub_map; exact S|exact J].
  - inversion N. auto.
Qed.
Definition out_ok (c : op) (o : out) : Prop :=
  match o with OutH _ _ => creator c <> None | OutH2 _ _ _ => creates c = true /\ creator c = None | _ => True end.
Ltac outs H := repeat (unfold rv_, with_object, need_rw in H; cbv zeta in H; match type of H with
    | Ok _ = Ok _ => injection H as <- <-; cbn; exact Logic.I || (split; reflexivity) || discriminate
    | Err _ = _ => discriminate H | Undef _ = _ => discriminate H
    | bind ?m _ = _ => destruct m as [?v| |]; cbn [bind] in H; try discriminate H
    | (let '(_, _) := ?v in _) = _ => destruct v; cbn [bind] in H
    | (if ?b then _ else _) = _ => destruct b
    | match ?v with _ => _ end = _ => destruct v end).
Lemma step_out w rnd s c s' o h : objop c = Some h -> step w rnd s c = Ok (s', o) -> out_ok c o.
Proof.
  intros O H. destruct c; try discriminate O; cbn [step] in H; unfold with_sess, need_lib in H;
  unfold Create, Copy, GenKey, GenKeyPair, Wrap, Unwrap, Derive, FindInit, FindNext in H; try solve [outs H].
Qed.
Lemma new_none c o : out_ok c o -> creates c = false -> new_handles o = [].
Proof. destruct o; cbn; intros A B; try reflexivity; exfalso; [apply A; destruct c; try discriminate B; reflexivity|destruct A; congruence]. Qed.
Lemma good_handles w m s : inv s -> good True m s -> (0 <= m)%Z -> (m + 2 < 2^28)%Z -> 
  (forall c, usual_call c -> forall rnd s' o h, step w rnd s c = Ok (s', o) -> objop c = Some h -> NoDup (new_handles o) /\
     forall ho, In ho (new_handles o) -> exists x' ob, sess_get s' h = Some x' /\ find_obj s' x' ho = Some ob /\ o_handle ob = ho /\ ~ In (o_uid ob) (uids (live s))) /\
  (forall h x, sess_get s h = Some x -> NoDup (map o_handle (within s x)) /\ forall o, In o (within s x) -> find_obj s x (o_handle o) = Some o).
Proof.
  intros I G M0 M. assert (M' : (m < 2^28)%Z) by lia. split.
  - intros c U rnd s' o h H O. pose proof (usual_bytes _ U) as B.
    destruct (creates c) eqn:C.
    + destruct (creator c) as [[h' t]|] eqn:Cr.
      * assert (E : h' = h /\ templates c = [t]) by (destruct c; try discriminate Cr; injection Cr as -> ->; injection O as ->; split; reflexivity). destruct E as [-> T].
        destruct (step_created w _ _ _ _ _ _ _ I Cr H) as [(ho & b & ob & Nh & Tb & Eh & A) | (Nh & _)].
        -- assert (E : new_handles o = [ho]). { destruct o; try discriminate Nh. cbn in *. destruct (_ =? _)%Z; [injection Nh as ->; reflexivity|discriminate]. }
           rewrite E. split; [repeat constructor; auto|]. intros ho' [<-|[]].
           destruct (added_finds w True m h b ob s s') as (x' & o' & X & Fd & Eu & _); [exact Logic.I|exact G|exact M0|lia|apply (B t); [rewrite T; left; reflexivity|exact Tb]|exact A|].
           exists x', o'. rewrite Eh in Fd. split; [exact X|]. split; [exact Fd|]. unfold find_obj in Fd. apply find_some in Fd as [_ Fd]. split; [lia|]. rewrite Eu. apply A.
        -- assert (E : new_handles o = []).
           { pose proof (step_out _ _ _ _ _ _ _ O H) as K. destruct o; try reflexivity; cbn in Nh |- *; [destruct (_ =? _)%Z; [discriminate|reflexivity]|].
             exfalso. cbn in K. destruct K. congruence. }
           rewrite E. split; [constructor|contradiction].
      * destruct c; try discriminate C; try discriminate Cr. injection O as ->.
        destruct (pair_created w _ _ _ _ _ _ _ _ _ I H) as [(h1 & h2 & b1 & b2 & o1 & o2 & s1 & -> & T1 & T2 & E1 & E2 & A1 & A2 & I1 & Fr) | (rv & -> & _)]; [|split; [constructor|contradiction]].
        assert (G1 : good True (m + 1) s1) by (eapply added_good; [apply inv_uniq; exact I1|exact G|exact M0|lia| |exact A1]; apply (B tpub); [left; reflexivity|exact T1]).
        pose proof (step_inv w _ _ _ _ _ I H) as I'.
        assert (B2 : byte_ok True b2) by (apply (B tpriv); [right; left; reflexivity|exact T2]).
        assert (G2 : good True (m + 1 + 1) s') by (eapply added_good; [apply inv_uniq; exact I'|exact G1|lia|lia|exact B2|exact A2]).
        pose proof A1 as (F1 & _ & _ & x & x1 & X & X1 & _). pose proof A2 as (F2 & _ & _ & x1' & x' & X1' & X' & _). assert (x1' = x1) by congruence. subst x1'.
        assert (J1 : In (tag o1) (tags (within s' x'))) by (apply (added_keeps w h b2 o2 s1 s' x1 x'); auto; left; apply (added_keeps w h b1 o1 s s1 x x1); auto).
        assert (J2 : In (tag o2) (tags (within s' x'))) by (apply (added_keeps w h b2 o2 s1 s' x1 x'); auto).
        apply in_map_iff in J1 as (p1 & P1 & J1). apply in_map_iff in J2 as (p2 & P2 & J2). unfold tag in P1, P2. injection P1 as U1 K1 _. injection P2 as U2 K2 _.
        pose proof (good_finds True _ s' h x' p1 Logic.I G2 ltac:(lia) X' J1) as Q1. pose proof (good_finds True _ s' h x' p2 Logic.I G2 ltac:(lia) X' J2) as Q2.
        rewrite K1, E1 in Q1. rewrite K2, E2 in Q2.
        assert (Nu : o_uid o1 <> o_uid o2).
        { intros Eq. apply F2. rewrite <- Eq. assert (J : In (tag o1) (tags (within s1 x1))) by (apply (added_keeps w h b1 o1 s s1 x x1); auto).
          apply in_map_iff in J as (q & Eqq & J). unfold tag in Eqq. injection Eqq as <- _ _. unfold uids, live. apply in_map. apply in_or_app. apply in_app_or in J as [J|J]; [left; exact J|right].
          apply sess_get_in in X1 as (X1 & _). eapply all_objs_in; eauto. }
        cbn [new_handles]. rewrite Z.eqb_refl. split.
        -- constructor; [|repeat constructor; auto]. intros [Eq|[]]. rewrite Eq in Q2. rewrite Q1 in Q2. injection Q2 as ->. congruence.
        -- intros ho [<-|[<-|[]]]; [exists x', p1; rewrite U1|exists x', p2; rewrite U2]; repeat (split; [congruence|]); [apply F1|apply Fr].
    + assert (E : new_handles o = []) by (eapply new_none; [eapply step_out; eauto|exact C]).
      rewrite E. split; [constructor|contradiction].
  - intros h x E. pose proof (fun o => good_finds True m s h x o Logic.I G M' E) as F. split; [|exact F].
    eapply nodup_by; [eapply within_nodup; eauto|]. intros a b A B Eq. pose proof (F a A) as Fa. pose proof (F b B) as Fb. rewrite Eq in Fa. congruence.
Qed.
Theorem C14_partial w d l s os : laws (w_se w) -> d (F_TOKEN, 0%nat) = None -> run w (sys0 d) l = Ok (s, os) -> (2 * (zlen l + 1) < 2^28)%Z ->
  Forall (fun c => usual_call (fst c)) l -> handles_good w usual_call s.
Proof.
  intros L D H M F. destruct (run_orderly w d l 0 (sys0 d) s os (od_0 w True d D) H F) as (m & O & Lm). pose proof (orderly_pos _ _ _ _ _ O) as P.
  pose proof (reach_inv w _ _ (orderly_reach _ _ _ _ _ O)) as I. destruct (orderly_kept w True (l_hash _ L) _ _ _ O) as [G _]; [lia|].
  destruct (good_handles w m s I G) as [A B]; [lia|lia|]. split; [exact B|]. intros rnd c s' o h U. apply A. exact U.
Qed.
Print Assumptions C14_partial.
(** A session key, then a token key with CKA_TOKEN 16: both get handle 1. *)
Definition token_is (b : N) (t : template) : template := mkA CKA_TOKEN (AV [b]) :: t.
Definition clash : list op := setup ++ [OOpenSession 1 RW; userlogin upin; OCreateObject H2 aes_tmpl; OCreateObject H2 (token_is 16 aes_tmpl)].
Example clash_ok : rvs clash = repeat CKR_OK 11 /\ skipn 9 (outs clash) = [OutH CKR_OK 1; OutH CKR_OK 1].
Proof. vm_compute. split; reflexivity. Qed.
Lemma hist_run l s os : hist l = Ok (s, os) -> run tw (sys0 nofiles) (numbered 1 l) = Ok (s, os).
Proof. intros H. exact H. Qed.
Lemma hist_is l s os : hist l = Ok (s, os) -> after l = s.
Proof. unfold after. intros ->. reflexivity. Qed.
Theorem C14_refuted : ~ C14_claim tw.
Proof.
  intros Cl. specialize (Cl toy_laws nofiles (numbered 1 clash)). destruct (hist clash) as [[s os]| |] eqn:E; [|vm_compute in E; discriminate..].
  assert (Sm : (2 * (zlen (numbered 1 clash) + 1) < 2^28)%Z) by (vm_compute; reflexivity). destruct (Cl s os eq_refl (hist_run _ _ _ E) Sm) as [Cl1 _]. clear Cl.
  assert (N : map (fun x => map o_handle (within s x)) (match sess_get s H2 with Some x => [x] | None => [] end) = [[1; 1]%Z]) by (vm_compute in E; injection E as <- _; vm_compute; reflexivity).
  destruct (sess_get s H2) as [x|] eqn:X; [|discriminate N]. destruct (Cl1 _ _ X) as [D _]. cbn [map] in N. injection N as N. rewrite N in D.
  inversion D as [|? ? Q]. apply Q. left. reflexivity.
Qed.
Print Assumptions C14_refuted.
(** Non-vacuity: objects of both kinds, key pairs, a destroyed key, a restart. *)
Definition usualb (c : op) : bool :=
  forallb (forallb (fun a => negb (andb (a_type a =? CKA_TOKEN)%Z (match a_val a with AV [b] => negb (andb (b <? 256)%N (orb (b =? 0)%N (negb (b mod 16 =? 0)%N))) | _ => false end)))) (templates c).
Lemma usualb_ok c : usualb c = true -> usual_call c.
Proof.
  unfold usualb. intros H t b T I. rewrite forallb_forall in H. specialize (H t T). rewrite forallb_forall in H. specialize (H _ I). cbn [a_type a_val] in H.
  rewrite Z.eqb_refl in H. cbn in H. rewrite negb_involutive in H. apply andb_true_iff in H as [H1 H2]. split; [lia|]. apply orb_true_iff in H2 as [H2|H2]; [left; lia|right; apply N.eqb_neq; destruct (_ =? _)%N; [discriminate|reflexivity]].
Qed.
Definition busy : list op :=
  zoo ++ [OCreateObject H2 aes_tmpl; OCopyObject H2 1 [mkA CKA_TOKEN (AV [3%N])]; OGenerateKey H2 true (mkA CKA_VALUE_LEN (ULONG 16) :: tokenly []) keyA;
          OGenerateKeyPair H2 KP_EC [mkA CKA_EC_PARAMS (AV ([6; 8] ++ p256)%N)] (tokenly []) (Some (GEc 5 [4; 1; 2]%N)); ODestroyObject H2 (2^28 + 3);
          OOpenSession 1 RW; OCreateObject H1 aes_tmpl].
Definition restarted : list op := busy ++ [OLogout H2; OFinalize; OInitialize; OOpenSession 1 RW; userlogin upin; OCreateObject H2 (tokenly aes_tmpl)].
Example busy_ok : forallb (fun r => r =? CKR_OK)%Z (rvs restarted) = true /\
  map o_handle (t_objs (s_tok (after busy))) = [2^28 + 10; 2^28 + 9; 2^28 + 8; 2^28 + 7; 2^28 + 6; 2^28 + 5; 2^28 + 4; 2^28 + 2; 2^28 + 1]%Z /\
  map o_handle (t_objs (s_tok (after restarted))) = [2^28 + 11; 2^28 + 10; 2^28 + 9; 2^28 + 8; 2^28 + 7; 2^28 + 6; 2^28 + 5; 2^28 + 4; 2^28 + 2; 2^28 + 1]%Z.
Proof. vm_compute. repeat split. Qed.
Example C14_meets : handles_good tw usual_call (after restarted).
Proof.
  destruct (hist restarted) as [[s os]| |] eqn:E; [|vm_compute in E; discriminate..].
  rewrite (hist_is _ _ _ E).
  apply (C14_partial tw nofiles (numbered 1 restarted) s os toy_laws eq_refl (hist_run _ _ _ E)); [vm_compute; reflexivity|].
  apply Forall_forall. intros c I. apply usualb_ok. assert (B : forallb (fun c => usualb (fst c)) (numbered 1 restarted) = true) by (vm_compute; reflexivity).
  rewrite forallb_forall in B. auto.
Qed.

(** ** C15: object quotas *)
Definition CKR_DEVICE_MEMORY : Z := 49.  (* 0x31, pkcs11.h *)
(** At most 64 token objects and 8 objects per session. *)
Definition within_quota (s : sys) : Prop := (zlen (t_objs (s_tok s)) <= 64)%Z /\ forall x, In x (s_sess s) -> (zlen (ss_objs x) <= 8)%Z.
(** There is (no) room for an object of template [t]; [k] more objects. *)
Definition room (s : sys) (h : Z) (t : template) : Prop :=
  forall x b, sess_get s h = Some x -> tmpl_token t = Some b -> if (b =? 0)%N then (zlen (ss_objs x) < 8)%Z else (zlen (t_objs (s_tok s)) < 64)%Z.
Definition full (s : sys) (h : Z) (t : template) : Prop :=
  exists x b, sess_get s h = Some x /\ tmpl_token t = Some b /\ if (b =? 0)%N then (8 <= zlen (ss_objs x))%Z else (64 <= zlen (t_objs (s_tok s)))%Z.
(** The same state without any object. *)
Definition emptied (s : sys) : sys := set_sess (set_tok s (set_objs (s_tok s) [])) (map (fun x => set_sobjs x []) (s_sess s)).
Definition makes (c : op) : Prop := match c with OCreateObject _ _ | OGenerateKey _ _ _ _ => True | _ => False end.
Definition C15_claim (w : world) : Prop :=
  laws (w_se w) -> forall d s, d (F_TOKEN, 0%nat) = None -> reach w (sys0 d) s -> within_quota s /\
  forall rnd c h t s' o s0 o0, makes c -> creator c = Some (h, t) -> step w rnd s c = Ok (s', o) -> step w rnd (emptied s) c = Ok (s0, o0) -> out_rv o0 = CKR_OK ->
    (room s h t -> out_rv o = CKR_OK) /\ (full s h t -> out_rv o = CKR_DEVICE_MEMORY /\ same_objs s s').

Lemma few_quota s : few s -> within_quota s.
Proof. intros [A B]. split; [exact A|]. rewrite Forall_forall in B. exact B. Qed.
Lemma fresh_few d : d (F_TOKEN, 0%nat) = None -> file_few d.
Proof. intros D f tf r H. congruence. Qed.
Lemma emptied_get s h : sess_get (emptied s) h = match sess_get s h with Some x => Some (set_sobjs x []) | None => None end.
Proof.
  unfold sess_get, find_sess. destruct (slot_ok _); [|reflexivity]. change (s_sess (emptied s)) with (map (fun x => set_sobjs x []) (s_sess s)).
  induction (s_sess s) as [|x l IH]; [reflexivity|]. cbn [map find]. change (ss_h (set_sobjs x [])) with (ss_h x).
  destruct (_ =? _)%Z; [|exact IH]. change (in_use (set_sobjs x [])) with (in_use x). destruct (in_use x); reflexivity.
Qed.
Lemma add_same_rv w rnd s x t o r h1 s1 r0 h0 s0 b : tmpl_token t = Some b ->
  (if (b =? 0)%N then (zlen (ss_objs x) < 8)%Z else (zlen (t_objs (s_tok s)) < 64)%Z) ->
  AddObject w rnd s x t o = Ok (r, h1, s1) -> AddObject w rnd (emptied s) (set_sobjs x []) t o = Ok (r0, h0, s0) -> r = r0.
Proof.
  unfold AddObject. intros -> R. unfold AddToSession. cbn [emptied set_tok set_sess s_tok set_objs t_objs t_key set_sobjs ss_objs].
  change (SESS_OBJ_MAX <=? zlen (@nil obj))%Z with false. change (TOK_OBJ_MAX <=? zlen (@nil obj))%Z with false. cbv iota. destruct (b =? 0)%N.
  - destruct (Z.leb_spec SESS_OBJ_MAX (zlen (ss_objs x))) as [L|L]; [unfold SESS_OBJ_MAX in L; lia|]. cbn [bind]. intros H H0. injection H as <- _ _. injection H0 as <- _ _. reflexivity.
  - destruct (Z.leb_spec TOK_OBJ_MAX (zlen (t_objs (s_tok s)))) as [L|L]; [unfold TOK_OBJ_MAX in L; lia|].
    destruct (Encode _ _ _ _) as [[c o2]| |]; cbn [bind]; try discriminate. destruct (negb (c =? 0)%Z).
    + cbn [bind]. intros H H0. injection H as <- _ _. injection H0 as <- _ _. reflexivity.
    + intros H H0. destruct (store w rnd _) as [[c1 q1]| |] in H; cbn [bind] in H; try discriminate. destruct (store w rnd _) as [[c2 q2]| |] in H0; cbn [bind] in H0; try discriminate.
      injection H as <- _ _. injection H0 as <- _ _. reflexivity.
Qed.
Lemma room_same w rnd s c h t s' o s0 o0 : makes c -> creator c = Some (h, t) -> room s h t -> step w rnd s c = Ok (s', o) -> step w rnd (emptied s) c = Ok (s0, o0) -> out_rv o = out_rv o0.
Proof.
  intros M Cr R H H0. destruct c; try contradiction M; injection Cr as <- <-; cbn [step] in H, H0; unfold with_sess, need_lib in H, H0; rewrite emptied_get in H0; cbn [emptied set_sess set_tok s_count] in H0;
  (destruct (0 <? s_count s)%Z; [|unfold rv_ in *; injection H as _ <-; injection H0 as _ <-; reflexivity]);
  (destruct (sess_get s h0) as [x|] eqn:G; [|unfold rv_ in *; injection H as _ <-; injection H0 as _ <-; reflexivity]).
  - unfold need_rw in H, H0. change (is_rw (set_sobjs x [])) with (is_rw x) in H0. destruct (is_rw x) eqn:Rw; [|unfold rv_ in *; injection H as _ <-; injection H0 as _ <-; reflexivity].
    unfold Create in H, H0. change (is_rw (set_sobjs x [])) with (is_rw x) in H0. change (s_uid _) with (s_uid s) in H0. destruct (CreateObject _ _ _ _) as [[rv [ob|]]| |]; cbn [bind] in H, H0; try discriminate;
      [|unfold rv_ in *; injection H as _ <-; injection H0 as _ <-; reflexivity].
    destruct (AddObject w rnd (bump s 1) _ _ _) as [[[r1 h1] s1]| |] eqn:A; cbn [bind] in H; try discriminate. 
    match type of H0 with bind ?m _ = _ => destruct m as [[[r2 h2] s2]| |] eqn:A0 end; cbn [bind] in H0; try discriminate. injection H as _ <-. injection H0 as _ <-. cbn [out_rv].
    destruct (tmpl_token t0) as [b|] eqn:T; [|unfold AddObject in A, A0; rewrite T in A, A0; congruence].
    eapply (add_same_rv w rnd (bump s 1) x); [exact T|apply (R x b G T)|exact A|exact A0].
  - destruct aes; [|unfold rv_ in *; injection H as _ <-; injection H0 as _ <-; reflexivity].
    unfold GenKey in H, H0. change (is_rw (set_sobjs x [])) with (is_rw x) in H0. change (s_uid _) with (s_uid s) in H0. destruct (NewObject _ _ _ _ _ _) as [[rv [ob|]]| |]; cbn [bind] in H, H0; try discriminate;
      [|unfold rv_ in *; injection H as _ <-; injection H0 as _ <-; reflexivity].
    destruct (as_sym ob) as [[l b]| |]; cbn [bind] in H, H0; try discriminate. destruct (zlen b <? l)%Z; [discriminate|].
    destruct (AddObject w rnd (bump s 1) _ _ _) as [[[r1 h1] s1]| |] eqn:A; cbn [bind] in H; try discriminate. 
    match type of H0 with bind ?m _ = _ => destruct m as [[[r2 h2] s2]| |] eqn:A0 end; cbn [bind] in H0; try discriminate. injection H as _ <-. injection H0 as _ <-. cbn [out_rv].
    destruct (tmpl_token t0) as [b'|] eqn:T; [|unfold AddObject in A, A0; rewrite T in A, A0; congruence].
    eapply (add_same_rv w rnd (bump s 1) x); [exact T|apply (R x b' G T)|exact A|exact A0].
Qed.
Lemma NewObject_rv oe rw uid ty cls t rv : NewObject oe rw uid ty cls t = Ok (rv, None) -> rv <> CKR_OK.
Proof.
  unfold NewObject. intros H. destruct (SetAttributeValue _ _ _ _) as [[c o1]| |]; cbn [bind] in H; try discriminate.
  injection H as -> H. destruct (Z.eqb_spec rv CKR_OK); [discriminate|assumption].
Qed.
Lemma CreateObject_rv oe rw uid t rv : CreateObject oe rw uid t = Ok (rv, None) -> rv <> CKR_OK.
Proof.
  unfold CreateObject. intros H. assert (B : forall cls, (let '(ty, good) := if (cls =? CKO_CERTIFICATE)%Z then (CKA_CERTIFICATE_TYPE, [0; 1; 2]%Z)
      else (CKA_KEY_TYPE, [CKK_RSA; CKK_EC; CKK_DH; CKK_AES; CKK_GENERIC_SECRET]) in
    match find_last t ty with
    | None => Ok (CKR_TEMPLATE_INCOMPLETE, None)
    | Some a => match tmpl_ulong a with
                | None => Ok (CKR_ATTRIBUTE_VALUE_INVALID, None)
                | Some k => if mem k good then NewObject oe rw uid k cls t
                            else Ok (CKR_ATTRIBUTE_VALUE_INVALID, None)
                end
    end) = Ok (rv, None) -> rv <> CKR_OK).
  { clear H. intros cls. destruct (cls =? CKO_CERTIFICATE)%Z; cbv beta iota zeta; (destruct (find_last t _) as [a|]; [|intros K; injection K as <-; discriminate]);
      (destruct (tmpl_ulong a); [|intros K; injection K as <-; discriminate]); (destruct (mem _ _); [apply NewObject_rv|intros K; injection K as <-; discriminate]). }
  destruct (find_last t CKA_CLASS) as [a|]; [|apply (B UNAVAILABLE); exact H]. destruct (tmpl_ulong a) as [cls|]; [|injection H as <-; discriminate]. apply (B cls); exact H.
Qed.
Lemma makes_rv w rnd s c s' rv : makes c -> step w rnd s c = Ok (s', OutRv rv) -> rv <> CKR_OK.
Proof.
  intros M H. destruct c; try contradiction M; cbn [step] in H; unfold with_sess, need_lib in H;
  (destruct (0 <? s_count s)%Z; [|unfold rv_ in *; injection H as _ <-; discriminate]);
  (destruct (sess_get s h) as [x|] eqn:G; [|unfold rv_ in *; injection H as _ <-; discriminate]).
  - unfold need_rw in H. destruct (is_rw x) eqn:Rw; [|unfold rv_ in *; injection H as _ <-; discriminate].
    unfold Create in H. destruct (CreateObject _ _ _ _) as [[r [ob|]]| |] eqn:E; cbn [bind] in H; try discriminate.
    + destruct (AddObject _ _ _ _ _ _) as [[[? ?] ?]| |]; cbn [bind] in H; try discriminate.
    + apply CreateObject_rv in E. unfold rv_ in H. injection H as _ <-. exact E.
  - destruct aes; [|unfold rv_ in *; injection H as _ <-; discriminate].
    unfold GenKey in H. destruct (NewObject _ _ _ _ _ _) as [[r [ob|]]| |] eqn:E; cbn [bind] in H; try discriminate.
    + destruct (as_sym ob) as [[l b]| |]; cbn [bind] in H; try discriminate. destruct (zlen b <? l)%Z; [discriminate|].
      destruct (AddObject _ _ _ _ _ _) as [[[? ?] ?]| |]; cbn [bind] in H; try discriminate.
    + apply NewObject_rv in E. unfold rv_ in H. injection H as _ <-. exact E.
Qed.
Lemma makes_out w rnd s c s' o h : makes c -> objop c = Some h -> step w rnd s c = Ok (s', o) -> new_handle o = None -> out_rv o <> CKR_OK.
Proof.
  intros M O H N. pose proof (step_out _ _ _ _ _ _ _ O H) as K. destruct o; cbn in *; try (destruct (Z.eqb_spec rv CKR_OK); [discriminate|assumption]); try (destruct K; destruct c; try contradiction M; discriminate).
  all: try (eapply makes_rv; eauto; fail).
  all: exfalso; clear - H M; destruct c; try contradiction M; cbn [step] in H; unfold with_sess, need_lib, Create, GenKey in H;
    repeat (unfold rv_, need_rw in H; match type of H with
    | Ok _ = Ok _ => discriminate H
    | Err _ = _ => discriminate H | Undef _ = _ => discriminate H
    | bind ?m _ = _ => destruct m as [?v| |]; cbn [bind] in H; try discriminate H
    | (let '(_, _) := ?v in _) = _ => destruct v; cbn [bind] in H
    | (if ?b then _ else _) = _ => destruct b
    | match ?v with _ => _ end = _ => destruct v end).
Qed.
(** A creation into a full list fails and changes no object. *)
Lemma full_fails w rnd s c h t s' o : inv s -> creator c = Some (h, t) -> full s h t -> step w rnd s c = Ok (s', o) -> new_handles o = [] /\ (makes c -> out_rv o <> CKR_OK) /\ same_objs s s'.
Proof.
  intros I Cr (x & b & G & T & F) H. assert (O : objop c = Some h) by (destruct c; try discriminate Cr; injection Cr as <- _; reflexivity).
  destruct (step_created w _ _ _ _ _ _ _ I Cr H) as [(ho & b' & ob & _ & Tb & _ & A) | (Nh & S)].
  - exfalso. assert (b' = b) by congruence. subst b'. destruct A as (_ & _ & _ & y & y' & Gy & _ & _ & A). assert (y = x) by congruence. subst y.
    destruct (b =? 0)%N; destruct A as [A _]; unfold SESS_OBJ_MAX, TOK_OBJ_MAX in A; lia.
  - split; [|split; [intros M; eapply makes_out; eauto|exact S]].
    pose proof (step_out _ _ _ _ _ _ _ O H) as K. destruct o; try reflexivity; cbn in Nh |- *; [destruct (_ =? _)%Z; [discriminate|reflexivity]|]. exfalso. cbn in K. destruct K. congruence.
Qed.
Lemma full_pair w rnd s h m tp tq g s' o : inv s -> full s h tp -> step w rnd s (OGenerateKeyPair h m tp tq g) = Ok (s', o) -> new_handles o = [] /\ same_objs s s'.
Proof.
  intros I (x & b & G & T & F) H. destruct (pair_created w _ _ _ _ _ _ _ _ _ I H) as [(h1 & h2 & b1 & b2 & o1 & o2 & s1 & _ & T1 & T2 & _ & _ & A & _) | (rv & -> & S)]; [|split; [reflexivity|exact S]].
  exfalso. assert (b1 = b) by congruence. subst b1. destruct A as (_ & _ & _ & y & y' & Gy & _ & _ & A). assert (y = x) by congruence. subst y.
  destruct (b =? 0)%N; destruct A as [A _]; unfold SESS_OBJ_MAX, TOK_OBJ_MAX in A; lia.
Qed.
(** Proved: the quotas; a creation without room makes no object and changes none;
    with room, C_CreateObject and C_GenerateKey succeed if they do on an empty
    token. Missing: the return value is CKR_FUNCTION_FAILED. *)
Theorem C15_partial w d s : laws (w_se w) -> d (F_TOKEN, 0%nat) = None -> reach w (sys0 d) s -> within_quota s /\
  forall rnd c s' o, step w rnd s c = Ok (s', o) ->
    (forall h t, creator c = Some (h, t) -> full s h t -> new_handles o = [] /\ (makes c -> out_rv o <> CKR_OK) /\ same_objs s s') /\
    (forall h m tp tq g, c = OGenerateKeyPair h m tp tq g -> full s h tp -> new_handles o = [] /\ same_objs s s') /\
    (forall h t s0 o0, makes c -> creator c = Some (h, t) -> step w rnd (emptied s) c = Ok (s0, o0) -> room s h t -> out_rv o = out_rv o0).
Proof.
  intros L D R. split; [apply few_quota; apply (reach_few w (l_hash _ L) d s (fresh_few d D) R)|]. intros rnd c s' o H. pose proof (reach_inv _ _ _ R) as I.
  split; [intros; eapply full_fails; eauto|]. split; [intros h m tp tq g -> F; eapply full_pair; eauto|]. intros h t s0 o0 M Cr H0 Rm. eapply room_same; eauto.
Qed.
Print Assumptions C15_partial.
(** Eight session keys, then a ninth. *)
Definition eight : list op := setup ++ [OOpenSession 1 RW] ++ repeat (OCreateObject H2 aes_tmpl) 8.
Theorem C15_refuted : ~ C15_claim tw.
Proof.
  intros Cl. destruct (Cl toy_laws nofiles (after eight) eq_refl) as [_ Q]; [apply after_reach; vm_compute; exact Logic.I|].
  destruct (step tw (rnd 0) (after eight) (OCreateObject H2 aes_tmpl)) as [[s1 o1]| |] eqn:E1; [|vm_compute in E1; discriminate..].
  destruct (step tw (rnd 0) (emptied (after eight)) (OCreateObject H2 aes_tmpl)) as [[s2 o2]| |] eqn:E2; [|vm_compute in E2; discriminate..].
  assert (O1 : out_rv o1 = CKR_FUNCTION_FAILED) by (vm_compute in E1; injection E1 as _ <-; reflexivity).
  assert (O2 : out_rv o2 = CKR_OK) by (vm_compute in E2; injection E2 as _ <-; reflexivity).
  destruct (Q (rnd 0) (OCreateObject H2 aes_tmpl) H2 aes_tmpl s1 o1 s2 o2 Logic.I eq_refl E1 E2 O2) as [_ Q1].
  assert (F : full (after eight) H2 aes_tmpl).
  { destruct (sess_get (after eight) H2) as [x|] eqn:X; [|vm_compute in X; discriminate]. exists x, 0%N. split; [exact X|]. split; [reflexivity|]. cbn.
    vm_compute in X. injection X as <-. vm_compute. discriminate. }
  apply Q1 in F as [F _]. rewrite O1 in F. discriminate.
Qed.
Print Assumptions C15_refuted.
(** Non-vacuity of the two cases of C15_partial: full and not full. *)
Example C15_room : (exists x, sess_get (after eight) H2 = Some x /\ zlen (ss_objs x) = 8%Z) /\ room (after eight) H2 (tokenly aes_tmpl) /\ full (after eight) H2 aes_tmpl /\
  (forall s' o, step tw (rnd 0) (after eight) (OCreateObject H2 (tokenly aes_tmpl)) = Ok (s', o) -> out_rv o = CKR_OK).
Proof.
  destruct (sess_get (after eight) H2) as [x|] eqn:X; [|vm_compute in X; discriminate].
  assert (Z : zlen (ss_objs x) = 8%Z) by (vm_compute in X; injection X as <-; reflexivity).
  assert (T : zlen (t_objs (s_tok (after eight))) = 0%Z) by (vm_compute; reflexivity).
  split; [eauto|]. split; [intros y b Y B; injection B as <-; change (zlen (t_objs (s_tok (after eight))) < 64)%Z; rewrite T; reflexivity|]. split; [exists x, 0%N; split; [exact X|]; split; [reflexivity|]; cbn; lia|].
  intros s' o E. vm_compute in E. injection E as _ <-. reflexivity.
Qed.

(** ** C16: a failed key pair generation leaves no trace *)
Definition C16_claim (w : world) : Prop :=
  laws (w_se w) -> forall d s rnd h m tp tq g, d (F_TOKEN, 0%nat) = None -> reach w (sys0 d) s ->
  match step w rnd s (OGenerateKeyPair h m tp tq g) with
  | Ok (s', o) => out_rv o <> CKR_OK -> same_objs s s'
  | Err _ => True
  | Undef u => u <> UB_use_after_free
  end.
(** Missing: the second object does not fit, or has no valid CKA_TOKEN, or
    cannot be encoded; then the first stays in its list after being freed. *)
Theorem C16_partial w d s rnd h m tp tq g s' o : reach w (sys0 d) s -> step w rnd s (OGenerateKeyPair h m tp tq g) = Ok (s', o) ->
  (exists h1 h2, o = OutH2 CKR_OK h1 h2) \/ (exists rv, o = OutRv rv /\ same_objs s s').
Proof.
  intros R H. destruct (pair_created w _ _ _ _ _ _ _ _ _ (reach_inv _ _ _ R) H) as [(h1 & h2 & _ & _ & _ & _ & _ & -> & _) | (rv & -> & S)]; eauto.
Qed.
Print Assumptions C16_partial.
Definition pair_now : op := OGenerateKeyPair H2 KP_EC [mkA CKA_EC_PARAMS (AV ([6; 8] ++ p256)%N)] [] (Some (GEc 5 [4; 1; 2]%N)).
Definition seven : list op := setup ++ [OOpenSession 1 RW] ++ repeat (OCreateObject H2 aes_tmpl) 7.
Theorem C16_refuted : ~ C16_claim tw.
Proof.
  intros Cl. specialize (Cl toy_laws nofiles (after seven) (rnd 0) H2 KP_EC [mkA CKA_EC_PARAMS (AV ([6; 8] ++ p256)%N)] [] (Some (GEc 5 [4; 1; 2]%N)) eq_refl).
  change (OGenerateKeyPair H2 KP_EC _ _ _) with pair_now in Cl.
  destruct (step tw (rnd 0) (after seven) pair_now) as [[s1 o1]| |] eqn:E1; [vm_compute in E1; discriminate..|].
  apply Cl; [apply after_reach; vm_compute; exact Logic.I|]. vm_compute in E1. injection E1 as <-. reflexivity.
Qed.
Print Assumptions C16_refuted.
(** Also with room for both, when the private template's CKA_TOKEN is malformed. *)
Example C16_bad_token : step tw (rnd 0) (after (setup ++ [OOpenSession 1 RW]))
  (OGenerateKeyPair H2 KP_EC [mkA CKA_EC_PARAMS (AV ([6; 8] ++ p256)%N)] [mkA CKA_TOKEN (AV [])] (Some (GEc 5 [4; 1; 2]%N))) = Undef UB_use_after_free.
Proof. vm_compute. reflexivity. Qed.
(** Non-vacuity: both outcomes. *)
Example C16_outcomes : skipn 15 (outs (seven ++ [ODestroyObject H2 3; pair_now; pair_now])) = [OutRv CKR_OK; OutH2 CKR_OK 8 9; OutRv CKR_FUNCTION_FAILED].
Proof. vm_compute. reflexivity. Qed.
