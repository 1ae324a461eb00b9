(** C121: searches follow the reference machine of Seek.v in every history; results are left over after a search. *)
From Verif Require Import Base Ops Object ObjectProofs Store Sys SysProofs SysProofs2 SysProofs3 SysProofs4 WfProofs LoginProofs ToySys PropSys1 PropSys2
  ObjFrame ObjProofs HandleProofs PropObject PropStore SearchProofs FindState PropFind Device DeviceProofs PropDevice Table Seek.

(** What a place holds. *)
Definition held (l : list session) (h : Z) : bool * list Z :=
  match find_sess l h with Some x => (ss_find x, skipn (ss_cur x) (ss_found x)) | None => (false, []) end.
Definition ksim (s : sys) (k : seek) : Prop :=
  sim s (k_dev k) /\ forall h, held (s_sess s) h = (k_on k h, k_rest k h).
Lemma held_keys l : forall l', map key l' = map key l -> forall h, held l' h = held l h.
Proof.
  induction l as [|x l IH]; intros [|y l'] E h; try discriminate E; [reflexivity|]. cbn [map] in E. unfold key in E at 1 3. injection E as E1 E2 E3 E4 E5 E.
  unfold held, find_sess in *. cbn [find]. rewrite E1. destruct (ss_h x =? h)%Z; [rewrite E3, E4, E5; reflexivity|]. apply IH. exact E.
Qed.
Lemma held_nil h : held [] h = (false, []). Proof. reflexivity. Qed.
Lemma find_upd l y h : find_sess (upd_sess l y) h = if (ss_h y =? h)%Z then match find_sess l h with Some _ => Some y | None => None end else find_sess l h.
Proof.
  unfold find_sess, upd_sess. induction l as [|a l IH]; cbn [map find]; [destruct (ss_h y =? h)%Z; reflexivity|].
  destruct (Z.eqb_spec (ss_h a) (ss_h y)) as [E|E].
  - rewrite E. destruct (ss_h y =? h)%Z; [reflexivity|exact IH].
  - destruct (Z.eqb_spec (ss_h a) h) as [F|F].
    + destruct (Z.eqb_spec (ss_h y) h); [congruence|reflexivity].
    + exact IH.
Qed.
Lemma held_upd l x y h : In x l -> ss_h y = ss_h x -> held (upd_sess l y) h = if (h =? ss_h x)%Z then (ss_find y, skipn (ss_cur y) (ss_found y)) else held l h.
Proof.
  intros X E. unfold held. rewrite find_upd, E, (Z.eqb_sym h). destruct (Z.eqb_spec (ss_h x) h) as [<-|N]; [|reflexivity].
  destruct (find_sess l (ss_h x)) eqn:F; [reflexivity|]. unfold find_sess in F. apply (find_none _ _ F) in X. rewrite Z.eqb_refl in X. discriminate.
Qed.
Lemma held_in l x : uniq l -> In x l -> held l (ss_h x) = (ss_find x, skipn (ss_cur x) (ss_found x)).
Proof. intros U X. unfold held. rewrite (find_sess_uniq _ _ U X). reflexivity. Qed.
Lemma has_place_sess s d h : inv s -> (0 < s_count s)%Z -> sim s d -> has_place d h = match find_sess (s_sess s) h with Some _ => true | None => false end.
Proof.
  intros I Cn S. destruct (okl s I Cn) as (C & L & _). 
  assert (W : has_place d h = true <-> exists n, h = H n /\ within d n).
  { unfold has_place, within. rewrite !orb_true_iff, andb_true_iff, existsb_exists. unfold H. split.
    - intros [[E|E]|[E (n & N & K)]]; try (apply Z.eqb_eq in E); [exists 1%Z|exists 2%Z|]; [split; [exact E|left; lia]..|].
      apply andb_prop in K as [K1 K2]. exists (h - 65536)%Z. split; [lia|]. right. split; [lia|]. exists n. split; [lia|exact K2].
    - intros (n & -> & [K|(K & m & M & O)]); [left; destruct (Z.eq_dec n 1); [left|right]; lia|].
      right. split; [lia|]. exists m. split; [|rewrite O; lia]. apply (open_out s d S) in O as (x & X & E & _). destruct (chain_num _ _ C X) as (j & Ej & J).
      apply numbers_in. unfold H in *. lia. }
  destruct (find_sess (s_sess s) h) as [x|] eqn:F.
  - apply W. apply find_sess_in in F as [X E]. destruct (chain_num _ _ C X) as (n & En & N). exists n. split; [congruence|]. apply (within_sess s d I Cn S). exact N.
  - destruct (has_place d h); [|reflexivity]. exfalso. destruct W as [W _]. destruct (W eq_refl) as (n & -> & N). apply (within_sess s d I Cn S) in N.
    destruct (chain_nth _ _ C N) as (x & X & E). unfold find_sess in F. apply (find_none _ _ F) in X. rewrite E, Z.eqb_refl in X. discriminate.
Qed.
(** ** Closing *)
Lemma final_found x x' : sess_final x = Ok x' -> ss_h x' = ss_h x /\ ss_find x' = false /\ ss_found x' = ss_found x /\ ss_cur x' = ss_cur x.
Proof. unfold sess_final. intros E. destruct (free_all _); cbn [bind] in E; try discriminate. destruct (op_session_final _); cbn [bind] in E; try discriminate. injection E as <-. auto. Qed.
Lemma held_app p l h : uniq (p ++ l) -> find_sess l h <> None -> held (p ++ l) h = held l h.
Proof.
  intros U F. destruct (find_sess l h) as [x|] eqn:E; [|contradiction]. apply find_sess_in in E as [X <-]. rewrite (held_in (p ++ l) x U); [|apply in_or_app; auto].
  symmetry. apply held_in; [|exact X]. clear - U. unfold uniq in *. induction p; [exact U|]. inversion U. auto.
Qed.
Lemma close_held l x l' h : sess_ok l -> In x l -> close_sess l x = Ok l' ->
  held l' h = match find_sess l' h with Some _ => (andb (negb (h =? ss_h x)%Z) (fst (held l h)), snd (held l h)) | None => (false, []) end.
Proof.
  intros (C & L & F) X E. pose proof (chain_uniq _ C) as U. unfold close_sess in E. destruct (sess_final x) as [x'| |] eqn:Fx; cbn [bind] in E; try discriminate.
  destruct l as [|y r]; [destruct X|]. destruct (andb _ _) eqn:A.
  - apply andb_prop in A as [A _]. apply Z.eqb_eq in A. assert (y = x) by (apply (NoDup_map_inj _ _ ss_h (y :: r)); auto; left; auto). subst y.
    apply drop_unused_split in E as (p & -> & _). destruct (find_sess l' h) as [z|] eqn:G; [|unfold held; rewrite G; reflexivity].
    change (x :: p ++ l') with ((x :: p) ++ l'). rewrite (held_app (x :: p) l' h U) by congruence. apply find_sess_in in G as [Z Ez]. assert (N : (h =? ss_h x)%Z = false).
    { apply Z.eqb_neq. rewrite <- Ez. unfold uniq in U. cbn in U. inversion U as [|? ? U1 U2]. subst. intros K. apply U1. rewrite <- K. apply in_map. apply in_or_app. auto. }
    rewrite N. cbn [negb andb]. apply surjective_pairing.
  - injection E as <-. apply final_found in Fx as (E1 & E2 & E3 & E4). rewrite (held_upd (y :: r) x x' h X E1), find_upd, E1, (Z.eqb_sym (ss_h x) h).
    destruct (Z.eqb_spec h (ss_h x)) as [->|N].
    + rewrite (find_sess_uniq _ x U X). rewrite (held_in _ x U X), E2, E3, E4. reflexivity.
    + cbn [negb andb]. unfold held. destruct (find_sess (y :: r) h); reflexivity.
Qed.
Lemma final_head_found n : forall x r l', final_head (S n) (x :: r) = Ok l' -> exists x', l' = x' :: r /\ ss_h x' = ss_h x /\ ss_find x' = false /\ ss_found x' = ss_found x /\ ss_cur x' = ss_cur x.
Proof.
  induction n as [|n IH]; intros x r l' E; cbn [final_head] in E; destruct (sess_final x) as [x'| |] eqn:Fx; cbn [bind] in E; try discriminate; apply final_found in Fx as (E1 & E2 & E3 & E4).
  - injection E as <-. exists x'. auto.
  - apply IH in E as (x2 & -> & A & B & C & D). exists x2. repeat split; congruence.
Qed.
Lemma close_all_held l l' h : sess_ok l -> close_all l = Ok l' ->
  held l' h = (andb (h =? H 1)%Z (fst (held l h)), if orb (h =? H 1)%Z (h =? H 2)%Z then snd (held l h) else []).
Proof.
  intros Ok0 E. pose proof (close_all_ok _ _ Ok0 E) as (p & b & a & b' & -> & -> & Ea & Eb & Eb2 & _).
  destruct Ok0 as (C & _ & _). pose proof (chain_uniq _ C) as U. unfold close_all in E. destruct (drop_dyn _) as [l1| |] eqn:D; cbn [bind] in E; try discriminate.
  assert (F : ss_find b' = false /\ ss_found b' = ss_found b /\ ss_cur b' = ss_cur b).
  { destruct l1 as [|z l1]; [discriminate E|]. apply drop_dyn_split in D as (q & Eq & _). apply (final_head_found (length l1)) in E as (z' & Ez & A1 & A2 & A3 & A4).
    injection Ez as <- <-. apply (f_equal (@rev session)) in Eq. rewrite !rev_app_distr in Eq. cbn in Eq. injection Eq as <- _. auto. }
  destruct F as (F1 & F2 & F3). change (sess_handle 1) with (H 1) in Ea. change (sess_handle 2) with (H 2) in Eb2. rewrite Eb2 in Eb.
  assert (Ha : held (p ++ [b; a]) (H 1) = (ss_find a, skipn (ss_cur a) (ss_found a))) by (rewrite <- Ea; apply held_in; [exact U|apply in_or_app; cbn; auto]).
  assert (Hb : held (p ++ [b; a]) (H 2) = (ss_find b, skipn (ss_cur b) (ss_found b))) by (rewrite <- Eb2; apply held_in; [exact U|apply in_or_app; cbn; auto]).
  unfold held at 1. unfold find_sess. cbn [find]. rewrite Ea, Eb, !(Z.eqb_sym _ h).
  destruct (Z.eqb_spec h (H 1)) as [->|N1]; [change (H 1 =? H 2)%Z with false; cbn [orb andb]; rewrite Ha; reflexivity|].
  destruct (Z.eqb_spec h (H 2)) as [->|N2]; [cbn [orb andb]; rewrite Hb, F1, F2, F3; reflexivity|reflexivity].
Qed.
(** ** Opening *)
Lemma new_blank l h : held (add_sess l) h = held l h \/ (exists x, In x l /\ ss_h x = ss_h (new_sess l)).
Proof.
  destruct (find_sess l (ss_h (new_sess l))) as [x|] eqn:F; [right; apply find_sess_in in F as [X E]; eauto|]. left. unfold held, add_sess. unfold find_sess at 1. cbn [find].
  destruct (Z.eqb_spec (ss_h (new_sess l)) h) as [<-|N]; [rewrite F; reflexivity|reflexivity].
Qed.
Lemma use_held l x u h : uniq l -> In x l -> held (upd_sess l (set_use x u)) h = held l h.
Proof. intros U X. rewrite (held_upd l x _ h X) by reflexivity. destruct (Z.eqb_spec h (ss_h x)) as [->|N]; [|reflexivity]. rewrite (held_in _ x U X). reflexivity. Qed.
Lemma open_held s fl s' o h : inv s -> (0 < s_count s)%Z -> OpenSession s fl = Ok (s', o) -> held (s_sess s') h = held (s_sess s) h.
Proof.
  intros I Cn E. unfold OpenSession in E. destruct (okl s I Cn) as (C & L & _). pose proof (chain_uniq _ C) as U.
  destruct (_ =? 0)%Z; [unfold rv_ in E; injection E as <- _; reflexivity|]. match type of E with (if ?b then _ else _) = _ => destruct b end; [unfold rv_ in E; injection E as <- _; reflexivity|].
  destruct (first_unused (s_sess s)) as [x|] eqn:Fu.
  - injection E as <- _. cbn [put_sess set_sess s_sess]. apply use_held; [exact U|]. apply find_some in Fu as [X _]. exact X.
  - match type of E with (if ?b then _ else _) = _ => destruct b end; [unfold rv_ in E; injection E as <- _; reflexivity|]. injection E as <- _. cbn [put_sess set_sess s_sess].
    assert (N : forall x, In x (s_sess s) -> ss_h x <> ss_h (new_sess (s_sess s))).
    { intros x X K. pose proof (chain_range _ _ C X) as R. destruct (s_sess s) as [|y r] eqn:El; [destruct X|]. pose proof (chain_head _ _ C) as Hd. unfold new_sess in K. cbn [ss_h] in K. rewrite HH in Hd. unfold sess_handle in *. lia. }
    rewrite use_held; [destruct (new_blank (s_sess s) h) as [K|(x & X & K)]; [exact K|destruct (N x X K)]| |left; reflexivity].
    unfold uniq, add_sess. cbn [map]. constructor; [|exact U]. intros J. apply in_map_iff in J as (x & K & X). apply (N x X K).
Qed.
(** ** Searching *)
Lemma find_tok_len w n : forall tk t acc l, (length acc <= FIND_MAX)%nat -> find_tok w n tk t acc = Ok l -> (length l <= FIND_MAX)%nat.
Proof.
  induction n as [|n IH]; intros tk t acc l A E; cbn [find_tok] in E; destruct (find_loop _ _ _ _ _) as [[acc1 full]| |] eqn:F; cbn [bind] in E; try discriminate;
  (assert (A1 : (length acc1 <= FIND_MAX)%nat) by (apply find_loop_is in F as [(_ & _ & K)|(_ & K & _)]; lia));
  (destruct full; [injection E as <-; exact A1|]; destruct (loops _); [|injection E as <-; exact A1]); [discriminate|]. destruct (_ =? _)%nat; [discriminate|]. eapply IH; eauto.
Qed.
Lemma Find_len w tk x b t l : Find w tk x b t = Ok l -> (length l <= 10)%nat.
Proof.
  unfold Find. intros E. destruct (find_loop _ _ _ _ _) as [[acc full]| |] eqn:F; cbn [bind] in E; try discriminate.
  assert (A1 : (length acc <= FIND_MAX)%nat) by (apply find_loop_is in F as [(_ & _ & K)|(_ & K & _)]; cbn; lia).
  destruct (orb _ _); [injection E as <-; rewrite rev_length; exact A1|]. destruct (find_tok _ _ _ _ _) as [acc1| |] eqn:F1; cbn [bind] in E; try discriminate.
  injection E as <-. rewrite rev_length. eapply find_tok_len; eauto.
Qed.
Lemma find_snoc {A} f (l : list A) a : find f (l ++ [a]) = match find f l with Some b => Some b | None => if f a then Some a else None end.
Proof. induction l as [|b l IH]; cbn; [reflexivity|]. destruct (f b); [reflexivity|exact IH]. Qed.
Lemma find_exists {A} f (l : list A) : existsb f l = match find f (rev l) with Some _ => true | None => false end.
Proof.
  induction l as [|a l IH]; [reflexivity|]. cbn [existsb rev]. rewrite find_snoc, IH. destruct (find f (rev l)); [apply orb_true_r|]. rewrite orb_false_r. destruct (f a); reflexivity.
Qed.
Lemma unreadable_is t : token_unreadable t = match find_last t CKA_TOKEN with None => false | Some _ => match tmpl_token t with None => true | Some _ => false end end.
Proof.
  unfold tmpl_token, find_last. change (fun a : attr => (a_type a =? CKA_TOKEN)%Z) with is_token. induction t as [|a t IH]; [reflexivity|].
  cbn [token_unreadable rev]. rewrite find_exists, find_snoc. destruct (find is_token (rev t)); [exact IH|]. destruct (is_token a); [|reflexivity].
  cbn [andb]. repeat match goal with |- context [match ?v with _ => _ end] => destruct v end; reflexivity.
Qed.
Lemma as_count_is n : as_count n = Z.to_nat (i32 n).
Proof.
  unfold as_count, i32. cbv zeta. pose proof (Z.mod_pos_bound n (2^32) ltac:(lia)). destruct (n mod 2 ^ 32 <? 2 ^ 31)%Z eqn:E; [reflexivity|]. apply Z.ltb_ge in E. lia.
Qed.

(** ** One call *)
(** Calls that touch no session. *)
Definition quiet (c : op) : bool :=
  match c with OInitToken _ _ _ | OInitPIN _ _ | OSetPIN _ _ _ | OLogin _ _ _ _ | OLogout _ | OGetTokenInfo _ _ => true | _ => false end.
Lemma quiet_sess w rnd s c s' o : quiet c = true -> step w rnd s c = Ok (s', o) -> s_sess s' = s_sess s.
Proof.
  intros Q H. destruct c; try discriminate Q; cbn [step] in H; unfold with_slot, with_sess, need_lib in H; (destruct (0 <? _)%Z; [|sinv; reflexivity]).
  - destruct (slot_ok slot); [|sinv; reflexivity].
    unfold InitToken in H. repeat match type of H with (if ?b then rv_ _ _ else _) = _ => destruct b; [sinv; reflexivity|] end.
    destruct (TokenReset _ _ _ _ _) as [[c1 s1]| |] eqn:T; cbn [bind] in H; try discriminate. unfold rv_ in H. injection H as <- _.
    unfold TokenReset in T. destruct (free_all _); cbn [bind] in T; try discriminate. destruct (zlen _ <? 32)%Z; [discriminate|]. unfold SetSOPin in T.
    apply store_frame in T as (_ & T & _). exact T.
  - destruct (sess_get s h); [|sinv; reflexivity].
    unfold InitPIN in H. repeat match type of H with (if ?b then rv_ _ _ else _) = _ => destruct b; [sinv; reflexivity|] end.
    destruct (SetUserPin _ _ _ _) as [[c1 s1]| |] eqn:T; cbn [bind] in H; try discriminate. unfold rv_ in H. injection H as <- _.
    unfold SetUserPin in T. apply store_frame in T as (_ & T & _). exact T.
  - destruct (sess_get s h); [|sinv; reflexivity].
    unfold SetPIN in H. cbv zeta in H. repeat match type of H with (if ?b then rv_ _ _ else _) = _ => destruct b; [sinv; reflexivity|] end.
    match type of H with bind ?r _ = _ => destruct r as [[c1 s1]| |] eqn:T end; cbn [bind] in H; try discriminate.
    unfold rv_ in H. injection H as <- _. destruct (_ =? _)%Z; [unfold SetSOPin in T|unfold SetUserPin in T]; (apply store_frame in T as (_ & T & _); exact T).
  - destruct (sess_get s h); [|sinv; reflexivity]. unfold Login in H. destruct (negb _); [sinv; reflexivity|].
    destruct (ut =? CKU_SO)%Z; [|destruct (ut =? CKU_USER)%Z; [|destruct (ut =? CKU_CONTEXT_SPECIFIC)%Z; sinv; reflexivity]].
    + destruct (SOLogin _ _ _ _ _) as [c t]. unfold rv_ in H. injection H as <- _. reflexivity.
    + destruct (UserLogin _ _ _ _) as [[c t]| |]; cbn [bind] in H; try discriminate. unfold rv_ in H. injection H as <- _. reflexivity.
  - destruct (sess_get s h); [|sinv; reflexivity]. destruct (Logout _ _) as [t| |]; cbn [bind] in H; try discriminate. unfold rv_ in H. injection H as <- _. reflexivity.
  - destruct (slot_ok slot); sinv; reflexivity.
Qed.
Lemma set_at_sim (s : sys) (k : seek) x y h d b l : inv s -> In x (s_sess s) -> ss_h x = h -> ss_h y = h -> ss_find y = b -> skipn (ss_cur y) (ss_found y) = l ->
  ksim s k -> sim (put_sess s y) d -> ksim (put_sess s y) (Seek d (set_at (k_on k) h b) (set_at (k_rest k) h l)).
Proof.
  intros I X <- Ey <- <- [S K] S'. split; [exact S'|]. intros h'. cbn [put_sess set_sess s_sess k_on k_rest]. rewrite (held_upd _ x y h' X) by exact Ey. unfold set_at.
  destruct (h' =? ss_h x)%Z; [reflexivity|apply K].
Qed.
Lemma ksim_ext s k k' : ksim s k -> k_dev k' = k_dev k -> (forall h, k_on k' h = k_on k h) -> (forall h, k_rest k' h = k_rest k h) -> ksim s k'.
Proof. intros [S K] E A B. split; [rewrite E; exact S|]. intros h. rewrite A, B. apply K. Qed.
Theorem C121_step w rnd s k c s' o : inv s -> ksim s k -> step w rnd s c = Ok (s', o) ->
  seek_says k c o /\ exists found, (length found <= 10)%nat /\ ksim s' (seek_next found k c o).
Proof.
  intros I KS E. pose proof KS as [S K]. destruct (C118_step w rnd s (k_dev k) c s' o I S E) as [Sy S']. pose proof (step_inv _ _ _ _ _ _ I E) as I'.
  assert (KEEP : (forall h, held (s_sess s') h = held (s_sess s) h) -> ksim s' (Seek (next (k_dev k) c o) (k_on k) (k_rest k))) by (intros A; split; [exact S'|]; intros h; rewrite A; apply K).
  assert (ANY : forall k', (forall f, seek_next f k c o = k') -> seek_says k c o -> ksim s' k' -> seek_says k c o /\ exists found, (length found <= 10)%nat /\ ksim s' (seek_next found k c o)).
  { intros k' A B D. split; [exact B|]. exists []. rewrite A. split; [cbn; lia|exact D]. }
  destruct (objop c) as [h0|] eqn:O.
  { destruct (findop c) eqn:Fo.
    2:{ apply (ANY (Seek (next (k_dev k) c o) (k_on k) (k_rest k))); [destruct c; try discriminate O; try discriminate Fo; reflexivity|split; [exact Sy|destruct c; try discriminate Fo; exact Logic.I]|].
        apply KEEP. intros h. apply held_keys. eapply step_keys; eauto. }
    destruct c; try discriminate Fo; clear O Fo KEEP; cbn [step] in E; rewrite next_other in S' by reflexivity; unfold seek_says; cbn [seek_next]; rewrite next_other by reflexivity.
    - apply (on_sess _ (k_dev k)) in E as [(-> & _ & A & B & F)|(x & Cn & X & Eh & U & M & E & F)]; [| |exact S].
      { split; [split; [exact Sy|apply F]|]. exists []. split; [cbn; lia|]. apply Z.eqb_neq in A. rewrite A.
        destruct (out_rv o =? CKR_ATTRIBUTE_VALUE_INVALID)%Z eqn:Q; [|exact KS]. exfalso. apply Z.eqb_eq in Q. cbn [says] in Sy. pose proof (F (fun _ => False)) as F0. unfold on_session in F0.
        destruct (_ <=? _)%Z; [subst o; discriminate Q|]. destruct (d_mode _ _); [exact F0|subst o; discriminate Q]. }
      assert (Hx : held (s_sess s) h = (ss_find x, skipn (ss_cur x) (ss_found x))) by (rewrite <- Eh; apply held_in; [apply inv_uniq; exact I|exact X]). rewrite K in Hx. injection Hx as Hx1 Hx2.
      unfold FindInit in E. rewrite unreadable_is. rewrite Hx1. destruct (ss_find x) eqn:Fx.
      { unfold rv_ in E. injection E as <- <-. split; [split; [exact Sy|apply F; reflexivity]|]. exists []. split; [cbn; lia|exact KS]. }
      cbv zeta in E. destruct (find_last t CKA_TOKEN) as [a|].
      + destruct (tmpl_token t) as [b|].
        * destruct (Find _ _ _ _ _) as [l| |] eqn:Fi; cbn [bind] in E; try discriminate. unfold rv_ in E. injection E as <- <-. split; [split; [exact Sy|apply F; reflexivity]|]. exists l. split; [eapply Find_len; exact Fi|].
          apply (set_at_sim s k x _ h _ _ _ I X Eh); auto.
        * unfold rv_ in E. injection E as <- <-. split; [split; [exact Sy|apply F; reflexivity]|]. exists []. split; [cbn; lia|]. apply (set_at_sim s k x _ h _ _ _ I X Eh); auto.
      + destruct (Find _ _ _ _ _) as [l| |] eqn:Fi; cbn [bind] in E; try discriminate. unfold rv_ in E. injection E as <- <-. split; [split; [exact Sy|apply F; reflexivity]|]. exists l. split; [eapply Find_len; exact Fi|].
        apply (set_at_sim s k x _ h _ _ _ I X Eh); auto.
    - apply (on_sess _ (k_dev k)) in E as [(-> & _ & A & B & F)|(x & Cn & X & Eh & U & M & E & F)]; [| |exact S].
      { split; [split; [exact Sy|apply F]|]. exists []. split; [cbn; lia|]. pose proof (F (fun _ => False)) as F0. unfold on_session in F0.
        destruct (_ <=? _)%Z; [subst o; exact KS|]. destruct (d_mode _ _); [contradiction|subst o; exact KS]. }
      assert (Hx : held (s_sess s) h = (ss_find x, skipn (ss_cur x) (ss_found x))) by (rewrite <- Eh; apply held_in; [apply inv_uniq; exact I|exact X]). rewrite K in Hx. injection Hx as Hx1 Hx2.
      unfold FindNext in E. injection E as <- <-. rewrite as_count_is, Hx2. split; [split; [exact Sy|apply F; reflexivity]|]. exists []. split; [cbn; lia|].
      match goal with |- ksim (put_sess s ?y) _ => refine (ksim_ext _ _ _ (set_at_sim s k x y h (k_dev k) _ _ I X Eh Eh eq_refl eq_refl KS S') _ _ _) end; [reflexivity| |].
      + intros h'. cbn [k_on]. unfold set_at. destruct (Z.eqb_spec h' h) as [->|N]; [exact Hx1|reflexivity].
      + intros h'. cbn [k_rest]. unfold set_at. destruct (h' =? h)%Z; [|reflexivity]. cbn [set_find ss_cur ss_found]. symmetry. apply skipn_plus.
    - apply (on_sess _ (k_dev k)) in E as [(-> & _ & A & B & F)|(x & Cn & X & Eh & U & M & E & F)]; [| |exact S].
      { split; [split; [exact Sy|apply F]|]. exists []. split; [cbn; lia|]. apply Z.eqb_neq in A. rewrite A. exact KS. }
      assert (Hx : held (s_sess s) h = (ss_find x, skipn (ss_cur x) (ss_found x))) by (rewrite <- Eh; apply held_in; [apply inv_uniq; exact I|exact X]). rewrite K in Hx. injection Hx as Hx1 Hx2.
      unfold rv_ in E. injection E as <- <-. split; [split; [exact Sy|apply F; reflexivity]|]. exists []. split; [cbn; lia|].
      match goal with |- ksim (put_sess s ?y) _ => refine (ksim_ext _ _ _ (set_at_sim s k x y h (k_dev k) _ _ I X Eh Eh eq_refl eq_refl KS S') _ _ _) end; [reflexivity|reflexivity|].
      intros h'. cbn [k_rest]. unfold set_at. destruct (Z.eqb_spec h' h) as [->|N]; [exact Hx2|reflexivity]. }
  assert (QUIET : quiet c = true -> seek_says k c o /\ exists found, (length found <= 10)%nat /\ ksim s' (seek_next found k c o)).
  { intros Q. apply (ANY (Seek (next (k_dev k) c o) (k_on k) (k_rest k))); [destruct c; try discriminate Q; reflexivity|split; [exact Sy|destruct c; try discriminate Q; exact Logic.I]|].
    apply KEEP. intros h. rewrite (quiet_sess _ _ _ _ _ _ Q E). reflexivity. }
  pose proof S as (Sc & _).
  destruct c; try discriminate O; try (apply QUIET; reflexivity); clear QUIET O.
  - (* C_Initialize *)
    apply (ANY (Seek (next (k_dev k) OInitialize o) (k_on k) (k_rest k))); [reflexivity|split; [exact Sy|exact Logic.I]|]. apply KEEP. intros h. cbn [step] in E. unfold Initialize in E.
    destruct (s_count s =? 0)%Z eqn:C0; [|injection E as <- _; reflexivity]. destruct (Token_Load _ _ _) as [t| |]; cbn [bind] in E; try discriminate. injection E as <- _.
    destruct I as (_ & I2 & _). rewrite I2 by lia. unfold held, find_sess. cbn [s_sess add_sess find]. destruct (_ =? h)%Z; [reflexivity|]. destruct (_ =? h)%Z; reflexivity.
  - (* C_Finalize *)
    cbn [seek_next]. split; [split; [exact Sy|exact Logic.I]|]. exists []. split; [cbn; lia|]. cbn [next] in S'. rewrite <- Sc in *. cbn [step] in E. unfold Finalize in E. cbn [next]. rewrite <- Sc.
    destruct (s_count s - 1 =? 0)%Z eqn:C0.
    + destruct (Z.eqb_spec (s_count s) 1); [|lia]. destruct (store _ _ _) as [[c1 s1]| |]; cbn [bind] in E; try discriminate. destruct (final_all _); cbn [bind] in E; try discriminate.
      destruct (free_all _); cbn [bind] in E; try discriminate. injection E as <- <-. split; [exact S'|]. intros h. reflexivity.
    + destruct (Z.eqb_spec (s_count s) 1); [lia|]. split; [exact S'|]. intros h. injection E as <- _. apply K.
  - (* the process ends *)
    apply (ANY seek0); [reflexivity|split; [exact Sy|exact Logic.I]|]. split; [exact S'|]. cbn [step] in E. injection E as <- _. intros h. reflexivity.
  - (* C_OpenSession *)
    apply (ANY (Seek (next (k_dev k) (OOpenSession slot flags) o) (k_on k) (k_rest k))); [reflexivity|split; [exact Sy|exact Logic.I]|]. apply KEEP. intros h. cbn [step] in E.
    apply (on_slot_ _ (k_dev k)) in E as [(-> & _)|(Cn & E & F)]; [reflexivity| |exact S]. eapply open_held; eauto.
  - (* C_CloseSession *)
    split; [split; [exact Sy|exact Logic.I]|]. exists []. split; [cbn; lia|]. cbn [seek_next]. cbn [step] in E.
    apply (on_sess _ (k_dev k)) in E as [(-> & _ & A & B & F)|(x & Cn & X & Eh & U & M & E & F)]; [apply Z.eqb_neq in A; rewrite A; exact KS| |exact S].
    unfold CloseSession in E. destruct (close_sess _ _) as [l| |] eqn:CL; cbn [bind] in E; try discriminate.
    assert (Q : s_sess s' = l /\ s_count s' = s_count s /\ o = OutRv CKR_OK).
    { cbv zeta in E. destruct (existsb in_use l); [unfold rv_ in E; injection E as <- <-; auto|]. destruct (Logout _ _); cbn [bind] in E; try discriminate. unfold rv_ in E. injection E as <- <-. auto. }
    destruct Q as (Q1 & Q2 & ->). change (out_rv (OutRv CKR_OK) =? CKR_OK)%Z with true. cbv iota. split; [exact S'|]. intros h'. cbn [k_on k_rest].
    assert (Cn' : (0 < s_count s')%Z) by lia. rewrite !(has_place_sess s' _ h' I' Cn' S'), Q1. rewrite (close_held _ _ _ h' (okl s I Cn) X CL), K, Eh. cbn [fst snd]. unfold set_at.
    destruct (find_sess l h'); [|reflexivity]. cbn [andb]. destruct (h' =? h)%Z; reflexivity.
  - (* C_CloseAllSessions *)
    split; [split; [exact Sy|exact Logic.I]|]. exists []. split; [cbn; lia|]. cbn [seek_next]. cbn [step] in E.
    apply (on_slot_ _ (k_dev k)) in E as [(-> & A & _)|(Cn & E & F)]; [apply Z.eqb_neq in A; rewrite A; exact KS| |exact S].
    destruct (close_all _) as [l| |] eqn:CL; cbn [bind] in E; try discriminate. unfold rv_ in E. injection E as <- <-.
    change (out_rv (OutRv CKR_OK) =? CKR_OK)%Z with true. cbv iota. split; [exact S'|]. intros h'. cbn [set_sess s_sess k_on k_rest]. rewrite (close_all_held _ _ h' (okl s I Cn) CL), K. reflexivity.
Qed.
Print Assumptions C121_step.

(** ** Every history *)
Lemma run_seeks w l : forall s k s' os, inv s -> ksim s k -> run w s l = Ok (s', os) -> exists k', seeks k (map fst l) os k' /\ inv s' /\ ksim s' k'.
Proof.
  induction l as [|[c r] l IH]; cbn [run map fst]; intros s k s' os I S E.
  - injection E as <- <-. exists k. split; [constructor|]. auto.
  - destruct (step w r s c) as [[s1 o1]| |] eqn:E1; cbn [bind] in E; try discriminate. destruct (run w s1 l) as [[s2 os2]| |] eqn:E2; cbn [bind] in E; try discriminate. injection E as <- <-.
    destruct (C121_step w r s k c s1 o1 I S E1) as (A & f & L & B). destruct (IH _ _ _ _ (step_inv _ _ _ _ _ _ I E1) B E2) as (k' & A2 & B2). exists k'. split; [econstructor; eassumption|exact B2].
Qed.
Lemma ksim0 fs : ksim (sys0 fs) seek0.
Proof. split; [apply sim0|]. intros h. reflexivity. Qed.
(** What the code does: the machine of Seek.v describes every history, and every later call. *)
Theorem C121_partial : forall w fs l s os, run w (sys0 fs) l = Ok (s, os) ->
  exists k, seeks seek0 (map fst l) os k /\ forall rnd c s' o, step w rnd s c = Ok (s', o) -> seek_says k c o.
Proof.
  intros w fs l s os R. destruct (run_seeks w l _ _ _ _ (inv0 fs) (ksim0 fs) R) as (k & A & I & B). exists k. split; [exact A|]. intros rnd c s' o E. apply (C121_step w rnd s k c s' o I B E).
Qed.
Print Assumptions C121_partial.
(** Handles come from nowhere but the last successful C_FindObjectsInit on the same session handle. *)
Definition begun (h : Z) (c : op) (o : out) : Prop := exists t, c = OFindObjectsInit h t /\ o = OutRv CKR_OK.
Lemma never_rest h k cs os k' : seeks k cs os k' -> Forall2 (fun c o => ~ begun h c o) cs os -> k_rest k h = [] -> k_rest k' h = [].
Proof.
  induction 1 as [k|k c o f cs os k' L Sy _ IH]; intros F E; [exact E|]. inversion F as [|? ? ? ? F1 F2]. subst. apply IH; [exact F2|]. clear IH F F2.
  destruct c; cbn [seek_next k_rest]; try exact E; try reflexivity.
  - destruct (_ =? 1)%Z; [reflexivity|exact E].
  - destruct (_ =? _)%Z; [|exact E]. cbn [k_rest]. destruct (has_place _ _); [exact E|reflexivity].
  - destruct (_ =? _)%Z; [|exact E]. cbn [k_rest]. destruct (orb _ _); [exact E|reflexivity].
  - destruct (out_rv o =? CKR_OK)%Z eqn:Q.
    + cbn [k_rest]. unfold set_at. destruct (Z.eqb_spec h h0) as [<-|N]; [|exact E]. exfalso. apply F1. exists t. split; [reflexivity|]. destruct Sy as [_ Sy]. unfold on_session in Sy. apply Z.eqb_eq in Q.
      destruct (_ <=? _)%Z; [subst o; discriminate Q|]. destruct (d_mode _ _); [|subst o; discriminate Q]. subst o. cbn [out_rv] in Q. rewrite Q. reflexivity.
    + destruct (out_rv o =? CKR_ATTRIBUTE_VALUE_INVALID)%Z; [|exact E]. cbn [k_rest]. unfold set_at. destruct (h =? h0)%Z; [reflexivity|exact E].
  - destruct o; try exact E. cbn [k_rest]. unfold set_at. destruct (Z.eqb_spec h h0) as [<-|N]; [rewrite E; apply skipn_nil|exact E].
  - destruct (_ =? _)%Z; exact E.
Qed.
Theorem C121_begun_partial : forall w fs l s os h n rnd s' r, run w (sys0 fs) l = Ok (s, os) -> Forall2 (fun c o => ~ begun h c o) (map fst l) os ->
  step w rnd s (OFindObjects h n) = Ok (s', OutHs CKR_OK r) -> r = [].
Proof.
  intros w fs l s os h n rnd s' r R F E. destruct (C121_partial _ _ _ _ _ R) as (k & A & B). specialize (B _ _ _ _ E) as [_ B]. clear E. rename B into E. apply never_rest with (h := h) in A; [|exact F|reflexivity].
  unfold on_session in E. destruct (_ <=? _)%Z; [discriminate|]. destruct (d_mode _ _); [|discriminate]. rewrite A, firstn_nil in E. congruence.
Qed.
Print Assumptions C121_begun_partial.

(** While a search is active another one is refused. *)
Definition active_here (k : seek) (h : Z) : Prop := (0 < d_count (k_dev k))%Z /\ is_open (k_dev k) h = true /\ k_on k h = true.
Definition numbered_open (d : dev) : Prop := forall h, is_open d h = true -> exists n, In n numbers /\ h = H n.
Lemma next_numbered d c o : numbered_open d -> says d c o -> numbered_open (next d c o).
Proof.
  intros N Sy h. assert (Q : is_open d h = true -> exists n, In n numbers /\ h = H n) by apply N. clear N.
  destruct c; cbn [next]; try (match goal with |- context [negb ?b] => destruct (negb b) end; exact Q).
  - destruct (_ =? 0)%Z; [discriminate|exact Q].
  - destruct (_ =? 1)%Z; [discriminate|exact Q].
  - discriminate.
  - destruct (negb _); [destruct (_ =? _)%Z; exact Q|exact Q].
  - destruct (negb _) eqn:R; [exact Q|]. destruct o; try exact Q. unfold is_open. cbn [d_mode]. unfold with_mode. destruct (Z.eqb_spec h h0) as [->|N]; [|exact Q]. intros _.
    cbn [says] in Sy. unfold on_slot in Sy. destruct (_ <=? _)%Z; [discriminate|]. destruct (_ =? 1)%Z; [|discriminate]. destruct (negb _); [discriminate|].
    assert (K : exists n, chosen d n /\ OutH rv h0 = OutH CKR_OK (H n)).
    { destruct (wants_rw flags); [destruct (full d); [discriminate|exact Sy]|]. destruct (d_who d) as [[]|]; [discriminate| |]; (destruct (full d); [discriminate|exact Sy]). }
    destruct K as (n & (C & _) & K). injection K as _ ->. eauto.
  - destruct (negb _); [exact Q|]. cbv zeta. intros O. apply Q. revert O. destruct (any_open _); unfold is_open; cbn [d_mode]; unfold with_mode; (destruct (_ =? _)%Z; [discriminate|auto]).
  - destruct (negb _); [exact Q|]. unfold is_open. cbn [d_mode]. destruct (_ =? _)%Z; [exact Q|discriminate].
Qed.
Lemma next_searching h k c o f b : numbered_open (k_dev k) -> seek_says k c o -> (b = true -> active_here k h) ->
  searching1 h b c o = true -> active_here (seek_next f k c o) h.
Proof.
  intros N [Sy Sk] B. unfold active_here in *. destruct c; cbn [searching1 seek_next next]; try discriminate;
    try (intros Hb; specialize (B Hb) as (B1 & B2 & B3); cbn [k_dev k_on]; match goal with |- context [negb ?q] => destruct (negb q) end; auto; fail).
  - intros Hb; specialize (B Hb) as (B1 & B2 & B3). destruct (Z.eqb_spec (d_count (k_dev k)) 0); [lia|]. cbn [k_dev k_on d_count]. split; [lia|auto].
  - intros Hb; specialize (B Hb) as (B1 & B2 & B3). cbn [k_dev k_on]. destruct (negb _); [destruct (_ =? _)%Z; auto|auto].
  - intros Hb; specialize (B Hb) as (B1 & B2 & B3). cbn [k_dev k_on]. destruct (negb _); [auto|]. destruct o; auto. cbn [d_count]. split; [exact B1|]. split; [|exact B3].
    unfold is_open in *. cbn [d_mode]. unfold with_mode. destruct (h =? h0)%Z; [reflexivity|exact B2].
  - destruct (Z.eqb_spec h0 h) as [->|Nh]; cbn [andb].
    + destruct (_ =? _)%Z; [discriminate|]. intros Hb; apply (B Hb).
    + intros Hb; specialize (B Hb) as (B1 & B2 & B3). destruct (out_rv o =? CKR_OK)%Z; [|auto]. cbn [negb k_dev k_on].
      assert (O : forall w, is_open (Dev (d_count (k_dev k)) (with_mode (k_dev k) h0 None) w) h = true).
      { intros w. unfold is_open in *. cbn [d_mode]. unfold with_mode. destruct (Z.eqb_spec h h0); [congruence|exact B2]. }
      assert (P : forall w, has_place (Dev (d_count (k_dev k)) (with_mode (k_dev k) h0 None) w) h = true).
      { intros w. destruct (N h B2) as (n & Nn & ->). unfold has_place. apply orb_true_iff. right. apply numbers_in in Nn as Nn'. apply andb_true_iff. split; [unfold H; lia|].
        apply existsb_exists. exists n. split; [exact Nn|]. rewrite O, Z.leb_refl. reflexivity. }
      destruct (any_open _); cbn [d_count]; rewrite ?P, ?O; unfold set_at; (destruct (Z.eqb_spec h h0); [congruence|]); auto.
  - destruct (_ =? _)%Z; [discriminate|]. intros Hb; apply (B Hb).
  - destruct (Z.eqb_spec h0 h) as [->|Nh]; cbn [andb].
    + destruct (out_rv o =? CKR_OK)%Z eqn:Q.
      * intros _. cbn [negb k_dev k_on]. unfold set_at. rewrite Z.eqb_refl. unfold on_session in Sk. apply Z.eqb_eq in Q. destruct (Z.leb_spec (d_count (k_dev k)) 0); [subst o; discriminate Q|].
        unfold is_open. destruct (d_mode _ _); [|subst o; discriminate Q]. auto.
      * intros Hb; specialize (B Hb) as (B1 & B2 & B3). destruct (out_rv o =? CKR_ATTRIBUTE_VALUE_INVALID)%Z; [|auto]. cbn [negb k_dev k_on]. unfold set_at. rewrite Z.eqb_refl. auto.
    + intros Hb; specialize (B Hb) as (B1 & B2 & B3). destruct (out_rv o =? CKR_OK)%Z; cbn [negb]; [|destruct (_ =? _)%Z; [|auto]]; cbn [k_dev k_on]; unfold set_at; (destruct (Z.eqb_spec h h0); [congruence|]); auto.
  - intros Hb; specialize (B Hb) as (B1 & B2 & B3). destruct o; auto; cbn [k_dev k_on]; destruct (negb _); auto.
  - destruct (Z.eqb_spec h0 h) as [->|Nh]; cbn [andb].
    + destruct (_ =? _)%Z; [discriminate|]. intros Hb; apply (B Hb).
    + intros Hb; specialize (B Hb) as (B1 & B2 & B3). destruct (_ =? _)%Z; [|auto]. cbn [negb k_dev k_on]. unfold set_at. destruct (Z.eqb_spec h h0); [congruence|]. auto.
Qed.
Lemma next_dev f k c o : seek_says k c o -> k_dev (seek_next f k c o) = next (k_dev k) c o.
Proof.
  intros [Sy _]. destruct c; cbn [seek_next]; try reflexivity.
  - cbn [next]. destruct (_ =? 1)%Z; reflexivity.
  - cbn [next]. destruct (out_rv o =? CKR_OK)%Z; reflexivity.
  - cbn [next]. destruct (out_rv o =? CKR_OK)%Z; reflexivity.
  - cbn [next]. destruct (out_rv o =? CKR_OK)%Z; cbn [negb]; [reflexivity|]. destruct (_ =? _)%Z; reflexivity.
  - cbn [next]. destruct (negb _), o; reflexivity.
  - cbn [next]. destruct (out_rv o =? CKR_OK)%Z; reflexivity.
Qed.
Lemma seeks_active h k cs os k' : seeks k cs os k' -> forall b, numbered_open (k_dev k) -> (b = true -> active_here k h) -> searching h b cs os = true -> active_here k' h.
Proof.
  induction 1 as [k|k c o f cs os k' L Sy _ IH]; intros b N B; [exact B|]. cbn [searching]. apply IH; [|apply next_searching; auto].
  rewrite (next_dev _ _ _ _ Sy). apply next_numbered; [exact N|apply Sy].
Qed.
Theorem C121_one_search_partial : forall w fs l s os h, run w (sys0 fs) l = Ok (s, os) -> searching h false (map fst l) os = true ->
  forall rnd t s' o, step w rnd s (OFindObjectsInit h t) = Ok (s', o) -> o = OutRv CKR_OPERATION_ACTIVE.
Proof.
  intros w fs l s os h R Se rnd t s' o E. destruct (C121_partial _ _ _ _ _ R) as (k & A & B). specialize (B _ _ _ _ E) as [_ B]. clear E. rename B into E.
  apply (seeks_active h) with (b := false) in A as (A1 & A2 & A3); [|discriminate|discriminate|exact Se].
  unfold on_session in E. destruct (Z.leb_spec (d_count (k_dev k)) 0); [lia|]. unfold is_open in A2. destruct (d_mode _ _); [|discriminate]. rewrite A3 in E. exact E.
Qed.
Print Assumptions C121_one_search_partial.

(** ** C121 *)
(** Without an active search in the session C_FindObjects gives no handles. *)
Definition C121_claim (w : world) : Prop :=
  forall fs l s os h n rnd s' r, run w (sys0 fs) l = Ok (s, os) -> searching h false (map fst l) os = false ->
    step w rnd s (OFindObjects h n) = Ok (s', OutHs CKR_OK r) -> r = [].
(** Three keys are found, one is delivered, the search is ended; the other two are delivered afterwards. *)
Definition left_over : list op := three ++ [OFindObjectsInit H2 []; OFindObjects H2 1; OFindObjectsFinal H2].
(** They are delivered even to the next user of the session handle, who did not log in, after the keys are gone. *)
Definition inherited : list op := left_over ++ [OLogout H2; OCloseSession H2; OOpenSession 1 RO].
Example C121_case : skipn 12 (outs (inherited ++ [OFindObjects H2 1; OFindObjectsInit H2 []; OFindObjects H2 5])) =
  [OutRv CKR_OK; OutHs CKR_OK [3]; OutRv CKR_OK; OutRv CKR_OK; OutRv CKR_OK; OutH CKR_OK H2; OutHs CKR_OK [2]; OutRv CKR_OK; OutHs CKR_OK []]%Z.
Proof. vm_compute. reflexivity. Qed.
(** The history of [C121_case] meets the hypotheses of [C121_one_search_partial] before C_FindObjectsFinal. *)
Example C121_active : searching H2 false (three ++ [OFindObjectsInit H2 []]) (outs (three ++ [OFindObjectsInit H2 []])) = true /\
  searching H2 false left_over (outs left_over) = false /\ outs (three ++ [OFindObjectsInit H2 []; OFindObjectsInit H2 []]) = outs (three ++ [OFindObjectsInit H2 []]) ++ [OutRv CKR_OPERATION_ACTIVE].
Proof. vm_compute. repeat split; reflexivity. Qed.
Theorem C121_refuted : ~ C121_claim tw.
Proof.
  intros C. assert (R : exists s, run tw (sys0 nofiles) (numbered 1 inherited) = Ok (s, outs inherited) /\ s = after inherited).
  { unfold outs, after, hist. destruct (run tw (sys0 nofiles) (numbered 1 inherited)) as [[s o]| |] eqn:E; [eexists; split; reflexivity| |]; vm_compute in E; discriminate. }
  destruct R as (s & R & Es). destruct (step tw (rnd 0) s (OFindObjects H2 1)) as [[s2 o]| |] eqn:E; [|subst s; vm_compute in E; discriminate..].
  assert (Eo : o = OutHs CKR_OK [2%Z]) by (subst s; vm_compute in E; injection E as _ <-; reflexivity). subst o.
  assert (Sf : searching H2 false (map fst (numbered 1 inherited)) (outs inherited) = false) by (vm_compute; reflexivity).
  discriminate (C nofiles _ _ _ _ _ _ _ _ R Sf E).
Qed.
Print Assumptions C121_refuted.
