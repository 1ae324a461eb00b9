(** Handles: within each list they descend strictly. *)
From Verif Require Import Base Ops Object ObjectProofs Store Sys SysProofs SysProofs2 SysProofs3 SysProofs4 ObjFrame ObjProofs.
From Coq Require Import Sorted.

(** [r]: the upper bits of all handles of the list; [m]: bound on the lower 28. *)
Definition hs_good (r m : Z) (l : list Z) : Prop :=
  StronglySorted Z.gt l /\ Forall (fun h => r * 2^28 < h <= r * 2^28 + m)%Z l.
Definition handles (l : list obj) : list Z := map o_handle l.
(** [Q]: the handles also name the right list. *)
Definition region_ok (Q : Prop) (r : Z) : Prop := (0 <= r < 2^36)%Z /\ (Q -> i32 r <> 0%Z).
Section Q.
Variable w : world.
Variable Q : Prop.
Definition tok_good (m : Z) (l : list obj) : Prop := exists r, region_ok Q r /\ hs_good r m (handles l).
Definition good (m : Z) (s : sys) : Prop :=
  tok_good m (t_objs (s_tok s)) /\ Forall (fun x => hs_good 0 m (handles (ss_objs x))) (s_sess s).

Lemma handles_tags l : handles l = map (fun t => snd (fst t)) (tags l).
Proof. unfold handles, tags. rewrite map_map. reflexivity. Qed.
Lemma handles_sub l l' : sub (tags l) (tags l') -> sub (handles l) (handles l').
Proof. intros S. rewrite !handles_tags. apply sub_map. exact S. Qed.
Lemma sorted_sub (l l' : list Z) : sub l l' -> StronglySorted Z.gt l' -> StronglySorted Z.gt l.
Proof.
  induction 1 as [|a l l' S IH|a l l' S IH]; intros H; [exact H| |]; inversion H; subst; [constructor; [auto|eapply sub_Forall; eauto]|auto].
Qed.
Lemma hs_sub r m l l' : sub l l' -> hs_good r m l' -> hs_good r m l.
Proof. intros S [A B]. split; [eapply sorted_sub; eauto|eapply sub_Forall; eauto]. Qed.
Lemma hs_le r m m' l : (m <= m')%Z -> hs_good r m l -> hs_good r m' l.
Proof. intros L [A B]. split; [exact A|]. eapply Forall_impl; [|exact B]. cbn. intros. lia. Qed.
Lemma hs_nil r m : hs_good r m [].
Proof. split; constructor. Qed.
Lemma tok_nil m : tok_good m [].
Proof. exists 1%Z. split; [unfold region_ok; split; [lia|intros _; vm_compute; discriminate]|apply hs_nil]. Qed.
Lemma good_le m m' s : (m <= m')%Z -> good m s -> good m' s.
Proof.
  intros L [(r & A & B) C]. split; [exists r; split; [exact A|eapply hs_le; eauto]|]. eapply Forall_impl; [|exact C]. cbn. intros. eapply hs_le; eauto.
Qed.
Lemma good_smaller m s s' : smaller s s' -> good m s -> good m s'.
Proof.
  intros [S1 S2] [(r & A & B) C]. split; [exists r; split; [exact A|]; eapply hs_sub; [apply handles_sub; exact S1|exact B]|].
  rewrite Forall_forall in *. intros x' X. destruct (S2 x' X) as [-> | (x & X1 & _ & S)]; [apply hs_nil|].
  eapply hs_sub; [apply handles_sub; exact S|apply C; exact X1].
Qed.
(** The CKA_TOKEN bytes whose handles name the right list. *)
Definition byte_ok (b : N) : Prop := (b < 256)%N /\ (Q -> b = 0%N \/ (b mod 16 <> 0)%N).

Lemma obj_handle_region b : byte_ok b -> b <> 0%N -> exists r, region_ok Q r /\ obj_handle b = (r * 2^28 + 1)%Z.
Proof.
  intros [L M] B0. assert (C : forallb (fun n => let b := N.of_nat n in 
      (let r := (obj_handle b / 2^28)%Z in andb (andb (0 <=? r)%Z (r <? 2^36)%Z) (andb (orb (b mod 16 =? 0)%N (negb (i32 r =? 0)%Z)) (obj_handle b =? r * 2^28 + 1)%Z))) (seq 0 256) = true) by (vm_compute; reflexivity).
  rewrite forallb_forall in C. specialize (C (N.to_nat b)). rewrite N2Nat.id in C. cbv zeta in C.
  assert (I : In (N.to_nat b) (seq 0 256)) by (apply in_seq; lia). apply C in I.
  apply andb_prop in I as [I1 I2]. apply andb_prop in I1 as [I0 I1]. apply andb_prop in I2 as [I2 I3].
  exists (obj_handle b / 2^28)%Z. split; [split; [lia|]|lia]. intros q E. destruct (M q) as [M1|M1]; [contradiction|]. rewrite E in I2.
  apply N.eqb_neq in M1. rewrite M1 in I2. discriminate.
Qed.
Lemma on_token_region r k : Q -> region_ok Q r -> (0 <= k < 2^28)%Z -> on_token (r * 2^28 + k) = true.
Proof.
  intros q [A B] K. unfold on_token. rewrite Z.div_add_l by lia. rewrite (Z.div_small k) by exact K. rewrite Z.add_0_r.
  destruct (Z.eqb_spec (i32 r) 0); [exfalso; apply B; auto|reflexivity].
Qed.
Lemma on_token_sess k : (0 <= k < 2^28)%Z -> on_token k = false.
Proof. intros K. unfold on_token. rewrite Z.div_small by exact K. reflexivity. Qed.
Lemma next_good r m l b : (0 <= r < 2^36)%Z -> hs_good r m (handles l) -> (0 <= m)%Z -> (m + 1 < 2^28)%Z -> (l = [] -> obj_handle b = (r * 2^28 + 1)%Z) ->
  hs_good r (m + 1) (next_handle l b :: handles l).
Proof.
  intros R [A B] M0 M E. assert (U : forall h, (r * 2^28 < h <= r * 2^28 + (m + 1))%Z -> u64 h = h).
  { intros h L. unfold u64. apply Z.mod_small. change (2^64)%Z with (2^36 * 2^28)%Z. nia. }
  destruct l as [|o l]; cbn [next_handle handles map] in *.
  - rewrite E by reflexivity. split; constructor; [constructor|constructor|lia|constructor].
  - inversion A as [|? ? A1 A2]. inversion B as [|? ? B1 B2]. subst. rewrite U by lia. split.
    + constructor; [exact A|]. constructor; [lia|]. eapply Forall_impl; [|exact A2]. cbn. intros. lia.
    + constructor; [lia|]. eapply Forall_impl; [|exact B]. cbn. intros. lia.
Qed.
Lemma tok_next m l b : tok_good m l -> (0 <= m)%Z -> (m + 1 < 2^28)%Z -> byte_ok b -> b <> 0%N ->
  exists r, region_ok Q r /\ hs_good r (m + 1) (next_handle l b :: handles l).
Proof.
  intros (r & R & H) M0 M L B. destruct l as [|o l].
  - destruct (obj_handle_region b L B) as (q & Rq & E). exists q. split; [exact Rq|]. apply next_good; [apply Rq|apply hs_nil|exact M0|exact M|auto].
  - exists r. split; [exact R|]. apply next_good; [apply R|exact H|exact M0|exact M|discriminate].
Qed.
Lemma added_handles h b o s s' : b <> 0%N -> added w h b o s s' -> handles (t_objs (s_tok s')) = next_handle (t_objs (s_tok s)) b :: handles (t_objs (s_tok s)).
Proof.
  intros B (_ & _ & _ & x & x' & _ & _ & _ & K). apply N.eqb_neq in B. rewrite B in K. destruct K as (_ & K1 & K2 & _).
  rewrite handles_tags, (tags_core _ (o :: t_objs (s_tok s)) K2), <- handles_tags. cbn. rewrite K1. reflexivity.
Qed.
Lemma added_good m h b o s s' : uniq (s_sess s') -> good m s -> (0 <= m)%Z -> (m + 1 < 2^28)%Z -> byte_ok b -> added w h b o s s' -> good (m + 1) s'.
Proof.
  intros U Gd M0 M B A. pose proof A as (F & O & Fr & x & x' & G & G' & R & K). pose proof Gd as [Gt Gs].
  assert (Rest : hs_good 0 (m + 1) (handles (ss_objs x')) -> Forall (fun y => hs_good 0 (m + 1) (handles (ss_objs y))) (s_sess s')).
  { intros Hx. rewrite Forall_forall in *. intros y Y. destruct (Z.eq_dec (ss_h y) h) as [E|E].
    - apply sess_get_in in G' as (X1 & X2 & _). replace y with x'; [exact Hx|]. apply (NoDup_map_inj _ _ ss_h (s_sess s')); auto. congruence.
    - eapply hs_le; [|apply Gs, Fr; auto]. lia. }
  assert (Hx0 : hs_good 0 m (handles (ss_objs x))) by (rewrite Forall_forall in Gs; apply Gs; apply sess_get_in in G; tauto).
  destruct (b =? 0)%N eqn:B0.
  - destruct K as (_ & K1 & K2 & K3 & _). apply N.eqb_eq in B0. subst b. split.
    + rewrite K3. destruct Gt as (r & Rr & Hr). exists r. split; [exact Rr|]. eapply hs_le; [|exact Hr]. lia.
    + apply Rest. rewrite K2. cbn [handles map]. rewrite K1. apply next_good; [lia|exact Hx0|exact M0|exact M|reflexivity].
  - assert (Nb : b <> 0%N) by (apply N.eqb_neq; exact B0). pose proof (added_handles _ _ _ _ _ Nb A) as Hh.
    destruct K as (_ & _ & _ & K3 & _). split.
    + unfold tok_good. rewrite Hh. apply tok_next; auto.
    + apply Rest. rewrite K3. eapply hs_le; [|exact Hx0]. lia.
Qed.

(** Resolving the new handle. *)
Lemma find_head h (l : list obj) hs : handles l = h :: hs -> exists o, find (fun o => (o_handle o =? h)%Z) l = Some o /\ hd_error l = Some o.
Proof. destruct l as [|o l]; [discriminate|]. cbn. intros [= E _]. rewrite <- E, Z.eqb_refl. eauto. Qed.
Lemma added_finds m h b o s s' : Q -> good m s -> (0 <= m)%Z -> (m + 1 < 2^28)%Z -> byte_ok b -> added w h b o s s' ->
  exists x' o', sess_get s' h = Some x' /\ find_obj s' x' (o_handle o) = Some o' /\ o_uid o' = o_uid o /\ on_token (o_handle o) = negb (b =? 0)%N.
Proof.
  intros q [Gt Gs] M0 M B A. pose proof A as (F & O & Fr & x & x' & G & G' & R & K).
  destruct (b =? 0)%N eqn:B0.
  - destruct K as (_ & K1 & K2 & _). apply N.eqb_eq in B0. subst b. exists x', o. split; [exact G'|].
    assert (H0 : hs_good 0 (m + 1) (next_handle (ss_objs x) 0 :: handles (ss_objs x))).
    { apply next_good; [lia| |exact M0|exact M|reflexivity]. rewrite Forall_forall in Gs. apply Gs. apply sess_get_in in G; tauto. }
    destruct H0 as [_ H0]. inversion H0 as [|? ? H1 _]. subst.
    assert (T : on_token (o_handle o) = false) by (rewrite K1; apply on_token_sess; lia).
    split; [|auto]. unfold find_obj. rewrite T, K2. cbn [find]. rewrite Z.eqb_refl. reflexivity.
  - assert (Nb : b <> 0%N) by (apply N.eqb_neq; exact B0). destruct K as (_ & K1 & K2 & _).
    destruct (tok_next m _ b Gt M0 M B Nb) as (r & Rr & [_ H0]). inversion H0 as [|? ? H1 _]. subst. rewrite <- K1 in H1.
    assert (T : on_token (o_handle o) = true).
    { replace (o_handle o) with (r * 2^28 + (o_handle o - r * 2^28))%Z by lia. apply on_token_region; [exact q|exact Rr|lia]. }
    destruct (t_objs (s_tok s')) as [|o' l] eqn:E; [discriminate|]. change (map core_obj (o' :: l) = map core_obj (o :: t_objs (s_tok s))) in K2. apply tags_core in K2. cbn in K2. injection K2 as Q2 Q1 _ _.
    exists x', o'. split; [exact G'|]. unfold find_obj. rewrite T, E. cbn [find].
    rewrite Q1, Z.eqb_refl. auto.
Qed.

(** Every object within reach is found by its handle. *)
Lemma sorted_find l o : StronglySorted Z.gt (handles l) -> In o l -> find (fun y => (o_handle y =? o_handle o)%Z) l = Some o.
Proof.
  induction l as [|y l IH]; [contradiction|]. cbn. intros S [<-|I]; [rewrite Z.eqb_refl; reflexivity|]. inversion S as [|? ? S1 S2]. subst.
  rewrite Forall_forall in S2. assert (L : (o_handle y > o_handle o)%Z) by (apply S2; apply in_map; exact I).
  destruct (Z.eqb_spec (o_handle y) (o_handle o)); [lia|]. auto.
Qed.
Lemma good_finds m s h x o : Q -> good m s -> (m < 2^28)%Z -> sess_get s h = Some x -> In o (t_objs (s_tok s) ++ ss_objs x) -> find_obj s x (o_handle o) = Some o.
Proof.
  intros q [(r & Rr & A1 & A2) B] M G I. unfold find_obj. apply in_app_or in I as [I|I].
  - assert (T : on_token (o_handle o) = true).
    { rewrite Forall_forall in A2. assert (L : In (o_handle o) (handles (t_objs (s_tok s)))) by (apply in_map; exact I). apply A2 in L.
      replace (o_handle o) with (r * 2^28 + (o_handle o - r * 2^28))%Z by lia. apply on_token_region; [exact q|exact Rr|lia]. }
    rewrite T. apply sorted_find; assumption.
  - apply sess_get_in in G as (X & _). rewrite Forall_forall in B. destruct (B x X) as [B1 B2].
    assert (T : on_token (o_handle o) = false).
    { rewrite Forall_forall in B2. assert (L : In (o_handle o) (handles (ss_objs x))) by (apply in_map; exact I). apply B2 in L. apply on_token_sess. lia. }
    rewrite T. apply sorted_find; assumption.
Qed.
(** Handles name one object of the list searched, whatever the bytes. *)
Lemma good_unique m s h x ho o : good m s -> sess_get s h = Some x -> find_obj s x ho = Some o ->
  forall o', In o' (if on_token ho then t_objs (s_tok s) else ss_objs x) -> o_handle o' = ho -> o' = o.
Proof.
  intros [(r & Rr & A1 & A2) B] G F o' I E. unfold find_obj in F. rewrite <- E in F. apply sess_get_in in G as (X & _). rewrite Forall_forall in B. destruct (B x X) as [B1 B2].
  rewrite <- E in I. destruct (on_token (o_handle o')); rewrite sorted_find in F by assumption; congruence.
Qed.
Lemma added_keeps h b o s s' x x' : added w h b o s s' -> sess_get s h = Some x -> sess_get s' h = Some x' ->
  forall g, In g (tags (t_objs (s_tok s) ++ ss_objs x)) \/ g = tag o -> In g (tags (t_objs (s_tok s') ++ ss_objs x')).
Proof.
  intros (_ & _ & _ & y & y' & G & G' & _ & K) E E' g I. assert (y = x) by congruence. assert (y' = x') by congruence. subst y y'. clear E E'.
  unfold tags in *. rewrite map_app in *. destruct (b =? 0)%N.
  - destruct K as (_ & _ & K1 & K2 & _). rewrite K1, K2. apply in_or_app. cbn. destruct I as [I | ->]; [apply in_app_or in I as [I|I]; auto|auto].
  - destruct K as (_ & _ & K1 & K2 & _). apply (tags_core _ (o :: t_objs (s_tok s))) in K1. unfold tags in K1. rewrite K1, K2. apply in_or_app. cbn.
    destruct I as [I | ->]; [apply in_app_or in I as [I|I]; auto|auto].
Qed.

(** ** Histories *)
(** The templates of a creating call, and the number of handles it uses. *)
Definition templates (c : op) : list template :=
  match c with
  | OCreateObject _ t | OCopyObject _ _ t | OGenerateKey _ _ t _ | OUnwrapKey _ _ _ _ _ t | ODeriveKey _ _ _ _ t => [t]
  | OGenerateKeyPair _ _ tp tq _ => [tp; tq]
  | _ => []
  end.
Definition bytes_ok (c : op) : Prop := forall t b, In t (templates c) -> tmpl_token t = Some b -> byte_ok b.
Definition uses (c : op) : Z := zlen (templates c).

Lemma same_good m s s' : same_objs s s' -> good m s -> good m s'.
Proof.
  intros (A & B & _) [C D]. split; [rewrite A; exact C|]. rewrite Forall_forall in *. intros x X.
  assert (J : In (ss_objs x) (map ss_objs (s_sess s))) by (rewrite <- B; apply in_map; exact X). apply in_map_iff in J as (y & <- & Y). auto.
Qed.
Lemma added_uniq h b o s s' : inv s' -> added w h b o s s' -> uniq (s_sess s').
Proof. intros I _. apply inv_uniq. exact I. Qed.
Theorem step_good m rnd s c s' o : inv s -> good m s -> (0 <= m)%Z -> (m + uses c < 2^28)%Z -> bytes_ok c -> loads s c = false ->
  step w rnd s c = Ok (s', o) -> good (m + uses c) s'.
Proof.
  intros I G M0 M B L H. pose proof (step_inv w _ _ _ _ _ I H) as I'.
  destruct (creates c) eqn:C.
  - destruct (creator c) as [[h t]|] eqn:Cr.
    + assert (U : uses c = 1%Z /\ templates c = [t]) by (destruct c; try discriminate Cr; injection Cr as -> ->; split; reflexivity). destruct U as [U T].
      destruct (step_created w _ _ _ _ _ _ _ I Cr H) as [(ho & b & ob & _ & Tb & _ & A) | (_ & S)].
      * rewrite U in *. eapply added_good; eauto; [apply inv_uniq; exact I'|]. apply (B t); [rewrite T; left; reflexivity|exact Tb].
      * eapply good_le; [|eapply same_good; eauto]. rewrite U. lia.
    + destruct c; try discriminate C; try discriminate Cr. change (uses _) with 2%Z in *.
      destruct (pair_created w _ _ _ _ _ _ _ _ _ I H) as [(h1 & h2 & b1 & b2 & o1 & o2 & s1 & _ & T1 & T2 & _ & _ & A1 & A2 & I1 & _) | (rv & _ & S)].
      * replace (m + 2)%Z with (m + 1 + 1)%Z by lia. eapply added_good; [apply inv_uniq; exact I'| | | | |exact A2]; [|lia|lia|apply (B tpriv); [right; left; reflexivity|exact T2]].
        eapply added_good; [apply inv_uniq; exact I1|exact G|lia|lia| |exact A1]. apply (B tpub); [left; reflexivity|exact T1].
      * eapply good_le; [|eapply same_good; eauto]. lia.
  - eapply good_le; [|eapply good_smaller; [|exact G]]; [unfold uses, zlen; lia|]. eapply step_smaller; eauto.
Qed.
Lemma load_sess rnd s c s' o : loads s c = true -> step w rnd s c = Ok (s', o) -> Forall (fun x => ss_objs x = []) (s_sess s').
Proof.
  intros L H. destruct c; try discriminate L. cbn in L, H. unfold Initialize in H. rewrite L in H.
  destruct (Token_Load _ _ _); cbn [bind] in H; try discriminate. injection H as <- _. repeat constructor.
Qed.
Lemma uses_pos c : (0 <= uses c)%Z.
Proof. unfold uses, zlen. lia. Qed.
End Q.
