(** C123: attributes read as they were last written, in every history: the reference machine of Note.v. *)
From Verif Require Import Base Ops Object ObjectSpec ObjectProofs AttrProofs Store StoreSpec Sys SysProofs SysProofs2 SysProofs3 SysProofs4 WfProofs LoginProofs ToySys PropSys1 PropSys2
  HeapProofs AttrFrame AttrProofs2 ObjFrame ObjProofs HandleProofs DiskHandles PropObject PropStore PropObj PropObj2 Device DeviceProofs PropDevice Table TableProofs PropTable Note NoteProofs.
From Coq Require Import Sorted.

(** ** Places *)
Definition place (s : sys) (k : option Z) : list obj := match k with None => t_objs (s_tok s) | Some h => objs_of s h end.
Definition vsim (s : sys) (f : memory) : Prop := forall k o ty v, In o (place s k) -> f k (o_handle o) ty = Some v -> holds o ty v.
Lemma place_live s k o : In o (place s k) -> In o (live s).
Proof.
  unfold live. destruct k as [h|]; cbn [place]; intros I; apply in_or_app; [right|left; exact I]. unfold objs_of in I. destruct (sess_get s h) as [x|] eqn:G; [|contradiction].
  apply sess_get_in in G as (X & _). eapply all_objs_in; eauto.
Qed.
Lemma region m s k o h : good True m s -> (m < 2^28)%Z -> In o (place s k) -> k = None \/ k = Some h -> owner h (o_handle o) = k.
Proof.
  intros [(r & (R1 & R2) & _ & A2) B] M I K. unfold owner. destruct k as [h'|]; cbn [place] in I.
  - destruct K as [K|K]; [discriminate|]. injection K as ->. unfold objs_of in I. destruct (sess_get s h) as [x|] eqn:G; [|contradiction]. apply sess_get_in in G as (X & _).
    rewrite Forall_forall in B. destruct (B x X) as [_ B2]. rewrite Forall_forall in B2. specialize (B2 _ (in_map o_handle _ _ I)). destruct (Z.leb_spec (2^28) (o_handle o)); [lia|reflexivity].
  - rewrite Forall_forall in A2. specialize (A2 _ (in_map o_handle _ _ I)). assert (r <> 0)%Z by (intros ->; apply (R2 Logic.I); reflexivity).
    destruct (Z.leb_spec (2^28) (o_handle o)); [reflexivity|lia].
Qed.
Lemma place_unique m s k o o' : good True m s -> In o (place s k) -> In o' (place s k) -> o_handle o = o_handle o' -> o = o'.
Proof.
  intros [(r & _ & A1 & _) B] I I' E. assert (S : StronglySorted Z.gt (handles (place s k))).
  { destruct k as [h|]; cbn [place]; [|exact A1]. unfold objs_of. destruct (sess_get s h) as [x|] eqn:G; [|constructor]. apply sess_get_in in G as (X & _). rewrite Forall_forall in B. apply (B x X). }
  pose proof (sorted_find _ _ S I) as F. pose proof (sorted_find _ _ S I') as F'. rewrite E in F. congruence.
Qed.
Lemma live_place s o : inv s -> In o (live s) -> In o (place s None) \/ exists y, In y (s_sess s) /\ In o (ss_objs y).
Proof. intros I L. unfold live in L. apply in_app_or in L as [L|L]; [left; exact L|right]. apply in_all_objs in L. exact L. Qed.

Section W.
Variable w : world.
(** An object that was there was in the same place. *)
Lemma located m m' rnd s c s' out h k o p : inv s -> inv s' -> good True m s -> (m < 2^28)%Z -> good True m' s' -> (m' < 2^28)%Z -> step w rnd s c = Ok (s', out) -> objop c = Some h ->
  k = None \/ k = Some h -> In o (place s' k) -> In p (live s) -> face o = face p -> In p (place s k).
Proof.
  intros I I' G M G' M' E O K A P F. pose proof (region m' s' k o h G' M' A K) as Rg. rewrite (face_handle _ _ F) in Rg.
  destruct (live_place s p I P) as [T|(y & Y & T)].
  - pose proof (region m s None p h G M T (or_introl eq_refl)) as Rp. rewrite <- Rg, Rp. exact T.
  - destruct k as [h'|].
    2:{ exfalso. destruct G as [_ B]. rewrite Forall_forall in B. destruct (B y Y) as [_ B2]. rewrite Forall_forall in B2. specialize (B2 _ (in_map o_handle _ _ T)).
        unfold owner in Rg. destruct (Z.leb_spec (2^28) (o_handle p)); [lia|discriminate]. }
    destruct K as [K|K]; [discriminate|]. injection K as ->. cbn [place] in *. unfold objs_of in A. destruct (sess_get s' h) as [x'|] eqn:X'; [|contradiction].
    pose proof (objop_modes _ _ _ _ _ _ _ I O E) as Md. pose proof (mode_modes _ _ Md h) as Mo. unfold mode in Mo. rewrite X' in Mo. unfold objs_of. destruct (sess_get s h) as [x|] eqn:X; [|discriminate].
    destruct (Z.eq_dec (ss_h y) h) as [Ey|Ny].
    + apply sess_get_in in X as (X & Ex & _). assert (x = y) by (eapply sess_get_same; [apply inv_uniq; exact I|exact X|exact Y|congruence]). subst y. exact T.
    + exfalso. pose proof (prims_frame w _ _ _ _ y I (objop_prims _ _ _ _ _ _ _ I O E) Y Ny) as Y'. apply sess_get_in in X' as (X' & Ex' & _). destruct I' as (_ & _ & U' & _).
      assert (x' = y); [|congruence]. eapply (uids_sess (s_sess s')); [apply uid_all; exact U'|exact X'|exact Y'|exact A|exact T|apply face_uid; exact F].
Qed.
Lemma objs_either rnd s c s' o h : inv s -> inv s' -> step w rnd s c = Ok (s', o) -> objop c <> Some h -> objs_of s' h = objs_of s h \/ objs_of s' h = [].
Proof.
  intros I I' E O. assert (D : (c <> OCloseSession h /\ ends_all c = false /\ c <> OInitialize) \/ (c = OCloseSession h \/ ends_all c = true \/ c = OInitialize)).
  { destruct c; try (left; split; [discriminate|split; [reflexivity|discriminate]]); try (right; right; left; reflexivity); try (right; right; right; reflexivity).
    destruct (Z.eq_dec h0 h) as [->|N]; [right; left; reflexivity|left; split; [congruence|split; [reflexivity|discriminate]]]. }
  destruct D as [(D1 & D2 & D3)|D]; [left; eapply others_objs; eauto|].
  assert (Nil : forall r, s_sess r = [] -> objs_of r h = []) by (intros r Er; unfold objs_of, sess_get; rewrite Er; destruct (slot_ok _); reflexivity).
  destruct c; try (destruct D as [D|[D|D]]; discriminate); cbn [step] in E; clear D O.
  - unfold Initialize in E. destruct (s_count s =? 0)%Z; [|injection E as <- _; auto]. destruct (Token_Load _ _ _) as [t| |] eqn:T; cbn [bind] in E; try discriminate. injection E as <- <-.
    right. unfold objs_of, sess_get. destruct (slot_ok _); [|reflexivity]. cbn [s_sess add_sess find_sess find]. destruct (_ =? h)%Z; [reflexivity|]. destruct (_ =? h)%Z; reflexivity.
  - unfold Finalize in E. destruct (s_count s - 1 =? 0)%Z; [|injection E as <- <-; left; reflexivity].
    destruct (store _ _ _) as [[c1 s1]| |]; cbn [bind] in E; try discriminate. destruct (final_all _); cbn [bind] in E; try discriminate.
    destruct (free_all _); cbn [bind] in E; try discriminate. injection E as <- <-. right. apply Nil. reflexivity.
  - injection E as <- <-. right. apply Nil. reflexivity.
  - unfold with_sess, need_lib in E. destruct (0 <? s_count s)%Z eqn:Cp; [|unfold rv_ in E; injection E as <- _; auto].
    destruct (sess_get s h0) as [x|] eqn:X; [|unfold rv_ in E; injection E as <- _; auto].
    unfold CloseSession in E. destruct (close_sess _ _) as [l| |] eqn:CL; cbn [bind] in E; try discriminate. apply sess_get_in in X as (X & Hx & Ux & Sl).
    apply close_sess_ok in CL as (_ & CL & _); [|apply I; lia|exact X].
    assert (T2 : s_sess s' = l). { destruct (existsb in_use l); [unfold rv_ in E; injection E as <- _; reflexivity|]. destruct (Logout _ _); cbn [bind] in E; try discriminate. unfold rv_ in E. injection E as <- _. reflexivity. }
    unfold objs_of. destruct (sess_get s' h) as [y|] eqn:Y; [|auto]. apply sess_get_in in Y as (Y & Hy & Uy & Sy). rewrite T2 in Y.
    destruct (CL y Y) as [[Y1 Y2]|(_ & _ & ->)]; [left|auto]. rewrite <- Hy. rewrite (sess_get_of s y (inv_uniq _ I) Y1 Uy); [reflexivity|]. rewrite Hy. exact Sy.
  - unfold with_slot, need_lib in E. destruct (0 <? s_count s)%Z eqn:Cp; [|unfold rv_ in E; injection E as <- _; auto].
    destruct (slot_ok slot); [|unfold rv_ in E; injection E as <- _; auto].
    destruct (close_all _) as [l| |] eqn:CL; cbn [bind] in E; try discriminate. unfold rv_ in E. injection E as <- <-.
    apply close_all_ok in CL as (p & y & a & y' & E1 & -> & E3 & E4 & E5 & E6 & E7 & E8); [|apply I; lia].
    unfold objs_of. destruct (sess_get (set_sess s [y'; a]) h) as [z|] eqn:Gz; [|auto]. apply sess_get_in in Gz as (Zi & Ez & Uz & Sz). destruct Zi as [<-|[<-|[]]]; [rewrite E7; auto|left].
    rewrite <- Ez. rewrite (sess_get_of s a (inv_uniq _ I)); [reflexivity| |exact Uz|rewrite Ez; exact Sz]. rewrite E1. apply in_or_app. right; right; left; reflexivity.
Qed.
(** Calls that neither make, load nor write. *)
Lemma kept_place m m' rnd s c s' out k o : inv s -> inv s' -> good True m s -> (m < 2^28)%Z -> good True m' s' -> (m' < 2^28)%Z -> step w rnd s c = Ok (s', out) ->
  loading s c = false -> creates c = false -> (forall h ho t, c <> OSetAttributeValue h ho t) -> In o (place s' k) -> exists p, In p (place s k) /\ face o = face p.
Proof.
  intros I I' G M G' M' E L C NS A. assert (Oth : forall h, k = Some h -> objop c <> Some h -> exists p, In p (place s k) /\ face o = face p).
  { intros h -> N. cbn [place] in *. destruct (objs_either _ _ _ _ _ h I I' E N) as [K|K]; rewrite K in A; [eauto|contradiction]. }
  destruct (objop c) as [h|] eqn:O.
  - assert (D : (k = None \/ k = Some h) \/ exists h', k = Some h' /\ h' <> h) by (destruct k as [h'|]; [destruct (Z.eq_dec h' h) as [->|]; eauto|auto]).
    destruct D as [D|(h' & D1 & D2)]; [|apply (Oth h' D1); congruence].
    destruct (prims_under w c h s s' (NS h) I (objop_prims _ _ _ _ _ _ _ I O E)) as [_ B]. destruct (B C o (place_live _ _ _ A)) as (p & P & F). exists p. split; [|exact F]. eapply located; eauto.
  - destruct k as [h|]; [apply (Oth h eq_refl); discriminate|]. destruct (other_under _ _ _ _ _ _ I O L E o (place_live _ _ _ A)) as (p & P & F). exists p. split; [|exact F].
    destruct (live_place s p I P) as [T|(y & Y & T)]; [exact T|exfalso]. pose proof (region m' s' None o 0%Z G' M' A (or_introl eq_refl)) as Rg. rewrite (face_handle _ _ F) in Rg.
    destruct G as [_ B]. rewrite Forall_forall in B. destruct (B y Y) as [_ B2]. rewrite Forall_forall in B2. specialize (B2 _ (in_map o_handle _ _ T)).
    unfold owner in Rg. destruct (Z.leb_spec (2^28) (o_handle p)); [lia|discriminate].
Qed.

Lemma write_hit f k ho g ty : write f k ho g k ho ty = g ty.
Proof. unfold write. assert (same_owner k k = true) as -> by (destruct k; [apply Z.eqb_refl|reflexivity]). rewrite Z.eqb_refl. reflexivity. Qed.
Lemma write_miss f k ho g k' ho' ty : k' <> k \/ ho' <> ho -> write f k ho g k' ho' ty = f k' ho' ty.
Proof.
  intros D. unfold write. destruct (andb _ _) eqn:E; [|reflexivity]. exfalso. apply andb_prop in E as [E1 E2]. apply Z.eqb_eq in E2. subst ho'. destruct D as [D|D]; [|congruence]. apply D.
  destruct k, k'; try discriminate E1; [apply Z.eqb_eq in E1; subst|]; reflexivity.
Qed.
Lemma owner_is h ho : owner h ho = None \/ owner h ho = Some h.
Proof. unfold owner. destruct (_ <=? _)%Z; auto. Qed.
Lemma other_owner h ho h' : h' <> h -> Some h' <> owner h ho.
Proof. intros N E. destruct (owner_is h ho) as [K|K]; congruence. Qed.

(** ** C_SetAttributeValue *)
Lemma upd_in l o q : In q (upd_objs l o) -> (q = o /\ exists y, In y l /\ o_uid y = o_uid o) \/ (In q l /\ o_uid q <> o_uid o).
Proof. unfold upd_objs. intros I. apply in_map_iff in I as (y & E & J). destruct (Nat.eqb_spec (o_uid y) (o_uid o)); [left; eauto|right; subst y; auto]. Qed.
Lemma place_put s o k q : inv s -> In q (place (put_obj s o) k) -> In q (upd_objs (place s k) o).
Proof.
  intros I A. destruct k as [h|]; cbn [place] in *; [|exact A]. unfold objs_of in *. destruct (sess_get (put_obj s o) h) as [x'|] eqn:X'; [|contradiction].
  apply sess_get_in in X' as (X' & E & U & Sl). change (s_sess (put_obj s o)) with (map (fun x => set_sobjs x (upd_objs (ss_objs x) o)) (s_sess s)) in X'.
  apply in_map_iff in X' as (y & <- & Y). change (ss_h y = h) in E. change (in_use y = true) in U. rewrite <- E in *.
  rewrite (sess_get_of s y (inv_uniq _ I) Y U Sl). exact A.
Qed.
Lemma set_vsim m m' rnd s h ho t s' o n : inv s -> inv s' -> good True m s -> (m < 2^28)%Z -> good True m' s' -> (m' < 2^28)%Z -> step w rnd s (OSetAttributeValue h ho t) = Ok (s', o) ->
  vsim s (n_val n) -> vsim s' (memory_next n (OSetAttributeValue h ho t) o).
Proof.
  intros I I' G M G' M' E V. pose proof E as E0. cbn [memory_next].
  assert (Same : s' = s -> untouched (out_rv o) = true -> vsim s' (if (out_rv o =? CKR_OK)%Z then write (n_val n) (owner h ho) ho (of_set t (n_val n (owner h ho) ho)) else if untouched (out_rv o) then n_val n else write (n_val n) (owner h ho) ho (of_failed t (n_val n (owner h ho) ho)))).
  { intros -> U. destruct (Z.eqb_spec (out_rv o) CKR_OK) as [K|_]; [rewrite K in U; discriminate|]. rewrite U. exact V. }
  cbn [step] in E. unfold with_sess, need_lib, rv_ in E. destruct (0 <? _)%Z; [|injection E as <- <-; apply Same; reflexivity].
  destruct (sess_get s h) as [x|] eqn:X; [|injection E as <- <-; apply Same; reflexivity].
  unfold need_rw, rv_ in E. destruct (is_rw x) eqn:R; [|injection E as <- <-; apply Same; reflexivity].
  unfold with_object, rv_ in E. destruct (find_obj s x ho) as [p|] eqn:F; [|injection E as <- <-; apply Same; reflexivity].
  destruct (SetAttributeValue _ _ p t) as [[rv p']| |] eqn:S; cbn [bind] in E; try discriminate. injection E as <- <-. clear Same. cbn [out_rv].
  unfold find_obj in F. apply find_some in F as [F Fh]. apply Z.eqb_eq in Fh. destruct (SetAttributeValue_id w _ _ _ _ _ S) as [(Eu & _ & Eh & _) _].
  assert (Pp : exists k0, In p (place s k0) /\ (k0 = None \/ k0 = Some h)).
  { destruct (on_token ho); [exists None|exists (Some h)]; cbn [place]; [auto|]. unfold objs_of. rewrite X. auto. }
  destruct Pp as (k0 & Pp & K0). pose proof (region m s k0 p h G M Pp K0) as Ow. rewrite Fh in Ow.
  intros k q ty v A N.
  assert (D : (k = None \/ k = Some h) \/ exists h', k = Some h' /\ h' <> h) by (destruct k as [h'|]; [destruct (Z.eq_dec h' h) as [->|]; eauto|auto]).
  destruct D as [D|(h' & -> & Nh)].
  2:{ apply (V (Some h') q ty v).
      - cbn [place] in *. rewrite (others_objs w _ _ _ _ _ h' I I' E0) in A; [exact A| | |reflexivity|]; discriminate || (cbn; congruence).
      - destruct (rv =? CKR_OK)%Z; [rewrite write_miss in N; [exact N|left; apply other_owner; exact Nh]|]. destruct (untouched rv); [exact N|rewrite write_miss in N; [exact N|left; apply other_owner; exact Nh]]. }
  pose proof (region m' _ k q h G' M' A D) as Rq. apply (place_put s p' k q I) in A. apply upd_in in A as [[-> (y & Y & Ey)]|[A Nu]].
  - assert (y = p). { apply (uid_same s); [apply I|eapply place_live; exact Y|eapply place_live; exact Pp|congruence]. } subst y. rewrite Eh, Fh in *.
    assert (k = owner h ho) by congruence. subst k.
    destruct (Z.eqb_spec rv CKR_OK) as [->|]; [|destruct (untouched rv) eqn:U].
    + rewrite write_hit in N. eapply (set_holds w); [exact S| |exact N]. intros v0 K. apply (V (owner h ho)); [exact Y|rewrite Fh; exact K].
    + eapply holds_field; [eapply untouched_same; eauto|]. apply (V (owner h ho)); [exact Y|rewrite Fh; exact N].
    + rewrite write_hit in N. eapply (failed_holds w); [exact S| |exact N]. intros v0 K. apply (V (owner h ho)); [exact Y|rewrite Fh; exact K].
  - assert (Nq : k <> owner h ho \/ o_handle q <> ho).
    { destruct (Z.eq_dec (o_handle q) ho) as [Eq|]; [|auto]. exfalso. apply Nu. rewrite Eu. f_equal. rewrite Eq in Rq. apply (place_unique m s k); [exact G|exact A| |congruence]. replace k with k0 by congruence. exact Pp. }
    apply (V k q ty v A). destruct (rv =? CKR_OK)%Z; [rewrite write_miss in N; auto|]. destruct (untouched rv); [exact N|rewrite write_miss in N; auto].
Qed.

(** ** New objects *)
Lemma added_at h b ob s s' : added w h b ob s s' -> exists k ob', In ob' (place s' k) /\ (k = None \/ k = Some h) /\ o_handle ob' = o_handle ob /\ o_uid ob' = o_uid ob.
Proof.
  intros (_ & _ & _ & x & x' & X & X' & _ & K). destruct (b =? 0)%N.
  - destruct K as (_ & _ & K & _). exists (Some h), ob. cbn [place]. unfold objs_of. rewrite X', K. split; [left; reflexivity|auto].
  - destruct K as (_ & _ & K & _). exists None. cbn [place]. destruct (t_objs (s_tok s')) as [|a r]; [discriminate K|]. cbn [map] in K.
    assert (Ka : core_obj a = core_obj ob) by (exact (f_equal (fun l => hd (core_obj a) l) K)). exists a. split; [left; reflexivity|]. split; [auto|].
    split; [exact (f_equal o_handle Ka)|exact (f_equal o_uid Ka)].
Qed.
Lemma added_keeps h b ob s s' k q : added w h b ob s s' -> k = None \/ k = Some h -> In q (place s k) -> exists q', In q' (place s' k) /\ o_handle q' = o_handle q /\ o_uid q' = o_uid q.
Proof.
  intros (_ & _ & _ & x & x' & X & X' & _ & K) [->| ->] A; cbn [place] in *; unfold objs_of in *; rewrite ?X, ?X' in *; destruct (b =? 0)%N.
  - destruct K as (_ & _ & _ & K & _). rewrite K. eauto.
  - destruct K as (_ & _ & K & _). apply (in_map core_obj) in A. assert (B : In (core_obj q) (map core_obj (t_objs (s_tok s')))) by (rewrite K; right; exact A).
    apply in_map_iff in B as (q' & B1 & B2). exists q'. split; [exact B2|]. split; [exact (f_equal o_handle B1)|exact (f_equal o_uid B1)].
  - destruct K as (_ & _ & K & _). rewrite K. exists q. split; [right; exact A|auto].
  - destruct K as (_ & _ & _ & K & _). rewrite K. eauto.
Qed.
Lemma added_place m' h b ob s s' : good True m' s' -> (m' < 2^28)%Z -> added w h b ob s s' ->
  exists ob', In ob' (place s' (owner h (o_handle ob))) /\ o_handle ob' = o_handle ob /\ ~ In (o_uid ob') (uids (live s)).
Proof.
  intros G M Ad. pose proof (proj1 Ad) as Nu. destruct (added_at h b ob s s' Ad) as (k & ob' & A & Kk & E1 & E2). exists ob'. split; [|split; [exact E1|rewrite E2; exact Nu]].
  rewrite <- E1, (region m' s' k ob' h G M A Kk). exact A.
Qed.
(** A call that makes objects through [h]: those there keep their notes, the others are as [P] says. *)
Lemma newer_vsim m m' rnd s c s' out h P f f' : inv s -> inv s' -> good True m s -> (m < 2^28)%Z -> good True m' s' -> (m' < 2^28)%Z -> step w rnd s c = Ok (s', out) -> objop c = Some h ->
  newer P s s' -> vsim s f ->
  (forall h' ho ty v, h' <> h -> f' (Some h') ho ty = Some v -> f (Some h') ho ty = Some v) ->
  (forall k o ty v, k = None \/ k = Some h -> In o (place s' k) -> In (o_uid o) (uids (live s)) -> f' k (o_handle o) ty = Some v -> f k (o_handle o) ty = Some v) ->
  (forall k o ty v, k = None \/ k = Some h -> In o (place s' k) -> P o -> owner h (o_handle o) = k -> f' k (o_handle o) ty = Some v -> holds o ty v) ->
  vsim s' f'.
Proof.
  intros I I' G M G' M' E O N V H1 H2 H3 k q ty v A F.
  assert (D : (k = None \/ k = Some h) \/ exists h', k = Some h' /\ h' <> h) by (destruct k as [h'|]; [destruct (Z.eq_dec h' h) as [->|]; eauto|auto]).
  destruct D as [D|(h' & -> & Nh)].
  2:{ apply (V (Some h') q ty v); [|eauto]. cbn [place] in *. rewrite (others_objs w _ _ _ _ _ h' I I' E) in A; [exact A|congruence| | |]; destruct c; discriminate || reflexivity. }
  destruct (N q (place_live _ _ _ A)) as [(p & P0 & Fc)|Pq].
  - eapply holds_field; [apply face_field; exact Fc|]. apply (V k); [eapply located; eauto|]. rewrite <- (face_handle _ _ Fc). apply (H2 k q ty v D A); [|exact F].
    rewrite (face_uid _ _ Fc). apply in_map. exact P0.
  - eapply H3; eauto. eapply region; eauto.
Qed.
Lemma make_vsim m m' rnd s c s' o h t n : inv s -> inv s' -> good True m s -> (m < 2^28)%Z -> good True m' s' -> (m' < 2^28)%Z -> step w rnd s c = Ok (s', o) -> makes c = Some (h, t) ->
  vsim s (n_val n) -> vsim s' (memory_next n c o).
Proof.
  intros I I' G M G' M' E Mk V.
  assert (Q : exists g, (forall ty v, g ty = Some v -> told t ty = Some v /\ forall ho, c <> OCopyObject h ho t) /\
     memory_next n c o = match new_handle o with Some ho => write (n_val n) (owner h ho) ho g | None => n_val n end).
  { destruct c; try discriminate Mk; injection Mk as -> ->; cbn [memory_next makes].
    all: try (exists (told t); split; [intros ty v K; split; [exact K|discriminate]|]; destruct o; try reflexivity; cbn [new_handle]; destruct (rv =? CKR_OK)%Z; reflexivity).
    exists (fun _ => None). split; [discriminate|]. destruct o; try reflexivity. cbn [new_handle]. destruct (rv =? CKR_OK)%Z; reflexivity. }
  destruct Q as (g & Hg & ->).
  assert (Oc : objop c = Some h) by (destruct c; try discriminate Mk; injection Mk as -> ->; reflexivity).
  assert (Cr : creator c = Some (h, t)) by (destruct c; try discriminate Mk; injection Mk as -> ->; reflexivity).
  assert (Nw : newer (fun ob => o = OutH CKR_OK (o_handle ob) /\ forall ty v, g ty = Some v -> holds ob ty v) s s').
  { assert (D : (exists ho, c = OCopyObject h ho t) \/ forall ho, c <> OCopyObject h ho t) by (destruct c; try (right; discriminate); injection Mk as -> ->; left; eauto).
    destruct D as [(ho & ->)|NC].
    - intros y Y. destruct (copy_born w _ _ _ _ _ _ _ I E y Y) as [K|K]; [left; exact K|right]. split; [exact K|]. intros ty v L. destruct (Hg ty v L) as [_ L2]. exfalso. exact (L2 ho eq_refl).
    - intros y Y. destruct (step_born w _ _ _ _ _ _ _ I Mk NC E y Y) as [K|[K1 K2]]; [left; exact K|right]. split; [exact K1|]. intros ty v L. eapply (from_holds w); [exact K2|]. apply (Hg ty v L). }
  eapply (newer_vsim m m' rnd s c s' o h _ (n_val n)); eauto.
  - intros h' ho ty v N. destruct (new_handle o) as [k|]; [|auto]. rewrite write_miss; [auto|]. left. apply other_owner. exact N.
  - intros k q ty v K A Old F. destruct (step_created w _ _ _ _ _ _ _ I Cr E) as [(ho & bt & ob & Nh & Tb & Eh & Ad) | (Nh & _)]; rewrite Nh in F; [|exact F].
    rewrite write_miss in F; [exact F|]. destruct (Z.eq_dec (o_handle q) ho) as [Eq|]; [left|auto]. intros Ek. subst k. destruct (added_place m' h bt ob s s' G' M' Ad) as (ob' & B1 & B2 & B3).
    rewrite Eh in *. apply B3. rewrite <- (place_unique m' s' _ q ob' G' A B1); [exact Old|congruence].
  - intros k q ty v K A [Eo Hq] Ow F. subst o. cbn [new_handle] in F. change (CKR_OK =? CKR_OK)%Z with true in F. cbv iota in F. rewrite <- Ow, write_hit in F. auto.
Qed.

Lemma same_live s s' : same_objs s s' -> live s' = live s.
Proof.
  intros (A & B & _). unfold live. rewrite A. f_equal. revert B. generalize (s_sess s). induction (s_sess s') as [|a l IH]; intros [|b r] B; try discriminate B; [reflexivity|].
  cbn [map] in B. injection B as B1 B2. cbn [all_objs]. rewrite B1, (IH r B2). reflexivity.
Qed.
Lemma pair_vsim m m' rnd s h kp tp tq g s' o n : inv s -> inv s' -> good True m s -> (m < 2^28)%Z -> good True m' s' -> (m' < 2^28)%Z -> step w rnd s (OGenerateKeyPair h kp tp tq g) = Ok (s', o) ->
  vsim s (n_val n) -> vsim s' (memory_next n (OGenerateKeyPair h kp tp tq g) o).
Proof.
  intros I I' G M G' M' E V. destruct (pair_created w _ _ _ _ _ _ _ _ _ I E) as [(h1 & h2 & b1 & b2 & o1 & o2 & s1 & Eo & T1 & T2 & E1 & E2 & A1 & A2 & I1 & N2) | (rv & Eo & Sm)]; subst o; cbn [memory_next].
  2:{ eapply (newer_vsim m m' rnd s _ s' _ h (fun _ => False) (n_val n) (n_val n)); try exact E; eauto; try contradiction. apply newer_same, same_live, Sm. }
  change (CKR_OK =? CKR_OK)%Z with true. cbv iota.
  assert (P1 : exists a1, In a1 (place s' (owner h h1)) /\ o_handle a1 = h1 /\ o_uid a1 = o_uid o1).
  { destruct (added_at h b1 o1 s s1 A1) as (k & a & A & Kk & F1 & F2). destruct (added_keeps h b2 o2 s1 s' k a A2 Kk A) as (a' & A' & F3 & F4). exists a'.
    pose proof (region m' s' k a' h G' M' A' Kk) as Rg. replace (o_handle a') with h1 in Rg by congruence. rewrite Rg. split; [exact A'|split; congruence]. }
  assert (P2 : exists a2, In a2 (place s' (owner h h2)) /\ o_handle a2 = h2 /\ o_uid a2 = o_uid o2).
  { destruct (added_at h b2 o2 s1 s' A2) as (k & a & A & Kk & F1 & F2). exists a. pose proof (region m' s' k a h G' M' A Kk) as Rg. replace (o_handle a) with h2 in Rg by congruence. rewrite Rg. split; [exact A|split; congruence]. }
  destruct P1 as (a1 & B1 & C1 & D1), P2 as (a2 & B2 & C2 & D2). pose proof (proj1 A1) as N1.
  assert (Ne : h1 <> h2).
  { intros Eh. rewrite <- Eh in B2, C2. assert (a1 = a2) by (apply (place_unique m' s' _ _ _ G' B1 B2); congruence). subst a2. pose proof (proj1 A2) as Q. apply Q. rewrite <- D2, D1.
    destruct (added_at h b1 o1 s s1 A1) as (k & a & A & Kk & F1 & F2). rewrite <- F2. apply in_map. eapply place_live; exact A. }
  assert (Nw : newer (born2 w (OutH2 CKR_OK h1 h2) tp tq) s s').
  { pose proof E as E'. cbn [step] in E'. unfold with_sess, need_lib, rv_ in E'. destruct (0 <? _)%Z; [|discriminate E']. destruct (sess_get s h) as [x|] eqn:X; [|discriminate E'].
    pose proof (proj1 (proj2 (sess_get_in _ _ _ X))) as Hx. rewrite <- Hx in X. eapply GenKeyPair_born; eauto. }
  eapply (newer_vsim m m' rnd s _ s' _ h _ (n_val n)); try exact E; eauto.
  - intros h' ho ty v N. rewrite !write_miss; [auto|left; apply other_owner; exact N|left; apply other_owner; exact N].
  - intros k q ty v K A Old F. rewrite !write_miss in F; [exact F| |].
    + destruct (Z.eq_dec (o_handle q) h1) as [Eq|]; [left|auto]. intros Ek. subst k. apply N1. rewrite <- D1, <- (place_unique m' s' _ q a1 G' A B1); [exact Old|congruence].
    + destruct (Z.eq_dec (o_handle q) h2) as [Eq|]; [left|auto]. intros Ek. subst k. apply N2. rewrite <- D2, <- (place_unique m' s' _ q a2 G' A B2); [exact Old|congruence].
  - intros k q ty v K A (k1 & k2 & Ek & Hq) Ow F. injection Ek as <- <-. destruct Hq as [[Hq Fr]|[Hq Fr]]; rewrite Hq in *; subst k.
    + rewrite write_miss in F by auto. rewrite write_hit in F. eapply (from_holds w); eauto.
    + rewrite write_hit in F. eapply (from_holds w); eauto.
Qed.

(** ** One call *)
Lemma loading_new s c b : loading s c = true -> sim s b -> c = OInitialize /\ d_count b = 0%Z.
Proof. intros L S. destruct c; try discriminate L. split; [reflexivity|]. assert (K : s_count s = d_count b) by apply S. cbn in L. lia. Qed.
Lemma vsim_step m m' rnd s c s' o n : inv s -> inv s' -> good True m s -> (m < 2^28)%Z -> good True m' s' -> (m' < 2^28)%Z -> tsim s (n_tab n) -> step w rnd s c = Ok (s', o) ->
  vsim s (n_val n) -> vsim s' (memory_next n c o).
Proof.
  intros I I' G M G' M' T E V. destruct (loading s c) eqn:L.
  - destruct (loading_new s c _ L (proj1 T)) as [-> C0]. cbn [memory_next]. rewrite C0. intros k q ty v _ F. discriminate F.
  - destruct (creates c) eqn:C.
    + destruct (makes c) as [[h t]|] eqn:Mk; [exact (make_vsim m m' rnd s c s' o h t n I I' G M G' M' E Mk V)|]. destruct c; try discriminate C; try discriminate Mk. exact (pair_vsim m m' rnd s _ _ _ _ _ s' o n I I' G M G' M' E V).
    + destruct (match c with OSetAttributeValue _ _ _ => true | _ => false end) eqn:Sa; [destruct c; try discriminate Sa; exact (set_vsim m m' rnd s _ _ _ s' o n I I' G M G' M' E V)|].
      assert (Mn : memory_next n c o = n_val n).
      { destruct c; try discriminate C; try discriminate Sa; try reflexivity. cbn [memory_next]. cbn [loading] in L. assert (K : s_count s = d_count (b_dev (n_tab n))) by apply T. rewrite <- K, L. reflexivity. }
      rewrite Mn. intros k q ty v A F. destruct (kept_place m m' rnd s c s' o k q I I' G M G' M' E L C) as (p & P & Fc); [intros h ho t ->; discriminate Sa|exact A|].
      eapply holds_field; [apply face_field; exact Fc|]. apply (V k); [exact P|]. rewrite <- (face_handle _ _ Fc). exact F.
Qed.
End W.
Definition nsim (s : sys) (n : notes) : Prop := tsim s (n_tab n) /\ vsim s (n_val n).
Theorem C123_step w m m' rnd s n c s' o : inv s -> good True m s -> (0 <= m)%Z -> (m + uses c < 2^28)%Z -> good True m' s' -> (m' < 2^28)%Z -> bool_call c -> nsim s n -> step w rnd s c = Ok (s', o) ->
  notes_say n c o /\ exists stored, nsim s' (notes_next stored n c o).
Proof.
  intros I G M0 M G' M' B [T V] E. pose proof (uses_pos c) as Up. pose proof (step_inv _ _ _ _ _ _ I E) as I'. destruct (C120_step w m rnd s (n_tab n) c s' o I G M0 M B T E) as (Sy & st & T').
  split; [|exists st; split; [exact T'|]; exact (vsim_step w m m' rnd s c s' o n I I' G ltac:(lia) G' M' T E V)].
  split; [exact Sy|]. intros h ho t rw t' -> Cn Md Li An.
  destruct (mode_get s (n_tab n) h rw (proj1 T) Md) as (x & X & _). assert (Cs : s_count s = d_count (b_dev (n_tab n))) by apply T.
  rewrite (listed_find m s (n_tab n) h x ho G ltac:(lia) T X) in Li. destruct (find_obj s x ho) as [p|] eqn:F; [|discriminate].
  cbn [step] in E. unfold with_sess, need_lib in E. destruct (Z.ltb_spec 0 (s_count s)); [|lia]. rewrite X in E. unfold with_object in E. rewrite F in E.
  assert (Pp : In p (place s (owner h ho)) /\ o_handle p = ho).
  { unfold find_obj in F. apply find_some in F as [F Fh]. apply Z.eqb_eq in Fh. split; [|exact Fh].
    assert (K : exists k0, In p (place s k0) /\ (k0 = None \/ k0 = Some h)) by (destruct (on_token ho); [exists None|exists (Some h)]; cbn [place]; [auto|]; unfold objs_of; rewrite X; auto).
    destruct K as (k0 & K1 & K2). rewrite <- Fh, (region m s k0 p h G ltac:(lia) K1 K2). exact K1. }
  destruct Pp as [P1 P2]. rewrite (answer_reads w p (n_val n (owner h ho) ho) t t') in E; [injection E as _ <-; reflexivity| |exact An].
  intros ty v K. apply (V (owner h ho)); [exact P1|rewrite P2; exact K].
Qed.
Print Assumptions C123_step.

(** ** Histories *)
Lemma run_noting w (L : laws (w_se w)) d l : forall m s n s' os, orderly w True d m s -> (m + 2 * zlen l < 2^28)%Z -> nsim s n -> run w s l = Ok (s', os) -> Forall (fun c => bool_call (fst c)) l ->
  exists n' m', noting n (map fst l) os n' /\ nsim s' n' /\ orderly w True d m' s' /\ (m' <= m + 2 * zlen l)%Z.
Proof.
  induction l as [|[c rnd] l IH]; intros m s n s' os O M S R F; cbn [run] in R.
  - injection R as <- <-. exists n, m. split; [constructor|]. split; [exact S|]. split; [exact O|unfold zlen; cbn; lia].
  - destruct (step _ _ _ _) as [[s1 o1]| |] eqn:E; cbn [bind] in R; try discriminate. destruct (run _ _ _) as [[s2 os2]| |] eqn:R2; cbn [bind] in R; try discriminate. injection R as <- <-.
    inversion F as [|? ? F1 F2]. subst. cbn [fst] in F1. pose proof (uses_two c) as U2. pose proof (uses_pos c) as U0. pose proof (orderly_pos _ _ _ _ _ O) as P.
    assert (Z1 : zlen ((c, rnd) :: l) = (zlen l + 1)%Z) by (unfold zlen; cbn [length]; lia). rewrite Z1 in *. assert (Z2 : (0 <= zlen l)%Z) by (unfold zlen; lia).
    assert (O1 : orderly w True d (m + uses c) s1) by (econstructor; [exact O|exact E|apply usual_bytes, bool_usual; exact F1]).
    destruct (orderly_kept w True (l_hash _ L) _ _ _ O) as [G _]; [lia|]. destruct (orderly_kept w True (l_hash _ L) _ _ _ O1) as [G1 _]; [lia|].
    destruct (C123_step w m (m + uses c) rnd s n c s1 o1 (reach_inv w _ _ (orderly_reach _ _ _ _ _ O)) G P ltac:(lia) G1 ltac:(lia) F1 S E) as (Sy & st & S1).
    destruct (IH (m + uses c)%Z s1 _ s2 os2 O1 ltac:(lia) S1 R2 F2) as (b' & m' & T & S' & O' & M'). exists b', m'.
    split; [econstructor; eassumption|]. split; [exact S'|]. split; [exact O'|lia].
Qed.
Lemma nsim0 d : nsim (sys0 d) notes0.
Proof. split; [apply tsim0|]. intros k o ty v _ F. discriminate F. Qed.
(** Every history from an empty storage, with CKA_TOKEN true or false in the templates, is one of the machine, *)
Theorem C123_follows : forall w d l s os, laws (w_se w) -> d (F_TOKEN, 0%nat) = None -> (2 * zlen l < 2^28)%Z -> Forall (fun c => bool_call (fst c)) l ->
  run w (sys0 d) l = Ok (s, os) ->
  exists n, noting notes0 (map fst l) os n /\
    (* and what the notes say is what the objects hold. *)
    (forall h x o ty v, sess_get s h = Some x -> In o (t_objs (s_tok s) ++ ss_objs x) -> n_val n (owner h (o_handle o)) (o_handle o) ty = Some v -> api_reads (w_oe w) o ty v).
Proof.
  intros w d l s os L D M F R. destruct (run_noting w L d l 0 (sys0 d) notes0 s os (od_0 w True d D) M (nsim0 d) R F) as (n & m & T & [_ V] & O & Lm).
  destruct (orderly_kept w True (l_hash _ L) _ _ _ O) as [G _]; [lia|]. exists n. split; [exact T|]. intros h x o ty v X J K.
  assert (P : exists k, In o (place s k) /\ (k = None \/ k = Some h)) by (apply in_app_or in J as [J|J]; [exists None|exists (Some h)]; cbn [place]; [auto|]; unfold objs_of; rewrite X; auto).
  destruct P as (k & P1 & P2). rewrite (region m s k o h G ltac:(lia) P1 P2) in K. destruct (V k o ty v P1 K) as (A & B & C & E). apply field_reads; assumption.
Qed.
Print Assumptions C123_follows.

(** *** What was last written is read *)
(** The call writes template [t] into the object [ho] of session [h]. *)
Definition wrote (c : op) (o : out) (h ho : Z) (t : template) : Prop :=
  (c = OSetAttributeValue h ho t /\ o = OutRv CKR_OK) \/
  (makes c = Some (h, t) /\ (forall k, c <> OCopyObject h k t) /\ o = OutH CKR_OK ho) \/
  (exists m tp tq g h1 h2, c = OGenerateKeyPair h m tp tq g /\ o = OutH2 CKR_OK h1 h2 /\ ((h1 = ho /\ h2 <> ho /\ tp = t) \/ (h2 = ho /\ tq = t))).
(** The call does not write attribute [ty] of object [ho] of [k]. *)
Definition spares (k : option Z) (ho ty : Z) (c : op) : Prop :=
  match c with
  | OInitialize => False
  | OSetAttributeValue h' ho' t => owner h' ho' <> k \/ ho' <> ho \/ Forall (fun a => a_type a <> ty /\ (ty = CKA_WRAP -> a_type a <> CKA_UNWRAP)) t
  | _ => True
  end.
Lemma wrote_noted n c o h ho t ty v : wrote c o h ho t -> told t ty = Some v -> memory_next n c o (owner h ho) ho ty = Some v.
Proof.
  intros W T. assert (Tt : existsb (touches ty) t = true).
  { apply told_split in T as (t1 & t2 & -> & _). rewrite existsb_app. cbn [existsb]. unfold touches at 2. cbn [a_type]. rewrite Z.eqb_refl. cbn [orb]. rewrite orb_true_r. reflexivity. }
  destruct W as [[-> ->]|[(Mk & NC & ->)|(m & tp & tq & g & h1 & h2 & -> & -> & W)]].
  - cbn [memory_next out_rv]. change (CKR_OK =? CKR_OK)%Z with true. cbv iota. rewrite write_hit. unfold of_set. rewrite Tt. exact T.
  - destruct c; try discriminate Mk; injection Mk as -> ->; try (exfalso; eapply NC; reflexivity); cbn [memory_next makes]; change (CKR_OK =? CKR_OK)%Z with true; cbv iota; rewrite write_hit; exact T.
  - cbn [memory_next]. change (CKR_OK =? CKR_OK)%Z with true. cbv iota. destruct W as [(<- & N & ->)|(<- & ->)]; [rewrite write_miss by auto|]; rewrite write_hit; exact T.
Qed.
Lemma spared_noted n c o k ho ty : spares k ho ty c -> ~ In ho (new_handles o) -> memory_next n c o k ho ty = n_val n k ho ty.
Proof.
  intros S N. assert (MK : forall h g, match o with OutH rv ho' => (if (rv =? CKR_OK)%Z then write (n_val n) (owner h ho') ho' g else n_val n) k ho ty = n_val n k ho ty | _ => True end).
  { intros h g. destruct o; try exact Logic.I. cbn in N. destruct (rv =? CKR_OK)%Z; [|reflexivity]. apply write_miss. right. intros ->. apply N. left. reflexivity. }
  destruct c; cbn [memory_next makes]; try reflexivity; try contradiction S.
  all: try (match goal with x : out |- _ => destruct x; first [reflexivity|apply MK] end).
  - cbn in S. assert (Q : forall g, (forall was, existsb (touches ty) t = false -> g was ty = was ty) -> write (n_val n) (owner h ho0) ho0 (g (n_val n (owner h ho0) ho0)) k ho ty = n_val n k ho ty).
    { intros g Hg. destruct (Z.eq_dec ho0 ho) as [->|]; [|apply write_miss; right; congruence]. destruct S as [S|[S|S]]; [apply write_miss; left; congruence|congruence|].
      assert (Tn : existsb (touches ty) t = false).
      { destruct (existsb _ t) eqn:E; [|reflexivity]. apply existsb_exists in E as (a & A & E). rewrite Forall_forall in S. destruct (S a A) as [S1 S2]. apply touches_affects in E as [E|[E1 E2]]; [congruence|]. exfalso. exact (S2 E1 E2). }
      unfold write. destruct (andb _ _) eqn:E; [|reflexivity]. rewrite Hg by exact Tn. apply andb_prop in E as [E _]. f_equal. f_equal. destruct k, (owner h ho); try discriminate E; [apply Z.eqb_eq in E; subst|]; reflexivity. }
    destruct (_ =? _)%Z; [apply (Q (of_set t)); intros was K; unfold of_set; rewrite K; reflexivity|]. destruct (untouched _); [reflexivity|].
    apply (Q (of_failed t)). intros was K. unfold of_failed. rewrite K. reflexivity.
  - destruct o; try reflexivity. cbn in N. destruct (rv =? CKR_OK)%Z; [|reflexivity]. rewrite !write_miss; [reflexivity| |]; right; intros ->; apply N; cbn; auto.
Qed.
Lemma spared_noting n cs os n' k ho ty : noting n cs os n' -> Forall (spares k ho ty) cs -> Forall (fun o => ~ In ho (new_handles o)) os -> n_val n' k ho ty = n_val n k ho ty.
Proof.
  induction 1 as [n|n c o st cs os n' Sy T IH]; intros F1 F2; [reflexivity|]. inversion F1 as [|? ? A1 A2]; inversion F2 as [|? ? B1 B2]; subst. rewrite IH by assumption. apply spared_noted; assumption.
Qed.
Lemma noting_app cs : forall b os cs' os' b', length cs = length os -> noting b (cs ++ cs') (os ++ os') b' -> exists b1, noting b cs os b1 /\ noting b1 cs' os' b'.
Proof.
  induction cs as [|c cs IH]; intros b [|o os] cs' os' b' Le T; try discriminate; cbn in T.
  - exists b. split; [constructor|exact T].
  - inversion T as [|? ? ? st ? ? ? Sy T' E1 E2 E3]. subst. destruct (IH _ os cs' os' b' ltac:(cbn in Le; congruence) T') as (b1 & A & B). exists b1. split; [econstructor; eauto|exact B].
Qed.
Theorem C123_last_written : forall w d l1 c1 r1 l2 h2 r2 s os1 o1 os2 o h ho t ty v buf, laws (w_se w) -> d (F_TOKEN, 0%nat) = None ->
  run w (sys0 d) (l1 ++ (c1, r1) :: l2 ++ [(OGetAttributeValue h2 ho [mkA ty (AV buf)], r2)]) = Ok (s, os1 ++ o1 :: os2 ++ [o]) ->
  length os1 = length l1 -> length os2 = length l2 -> (2 * (zlen l1 + zlen l2 + 2) < 2^28)%Z -> Forall (fun c => bool_call (fst c)) (l1 ++ (c1, r1) :: l2) ->
  (* value [v] is written; *)
  wrote c1 o1 h ho t -> told t ty = Some v ->
  (* the attribute is not written again, the handle not given out again; *)
  Forall (fun c => spares (owner h ho) ho ty (fst c)) l2 -> Forall (fun o => ~ In ho (new_handles o)) os2 ->
  (* then reading it, through any session in which the handle stands for the object, gives the value, unless session or object are gone. *)
  owner h2 ho = owner h ho -> zlen buf = zlen v ->
  In o [OutT CKR_OK [mkA ty (AV v)]; OutRv CKR_OBJECT_HANDLE_INVALID; OutRv CKR_SESSION_HANDLE_INVALID; OutRv CKR_CRYPTOKI_NOT_INITIALIZED].
Proof.
  intros w d l1 c1 r1 l2 h2 r2 s os1 o1 os2 o h ho t ty v buf L D R Le1 Le2 M F W T Sp Nh Ow Lb.
  assert (Fb : Forall (fun c => bool_call (fst c)) (l1 ++ (c1, r1) :: l2 ++ [(OGetAttributeValue h2 ho [mkA ty (AV buf)], r2)])).
  { apply Forall_app in F as [F1 F2]. apply Forall_app. split; [exact F1|]. inversion F2. subst. constructor; [assumption|]. apply Forall_app. split; [assumption|]. constructor; [|constructor]. intros t0 b []. }
  assert (Lm : (0 + 2 * zlen (l1 ++ (c1, r1) :: l2 ++ [(OGetAttributeValue h2 ho [mkA ty (AV buf)], r2)]) < 2^28)%Z) by (unfold zlen in *; rewrite app_length; cbn [length]; rewrite app_length; cbn [length]; lia).
  destruct (run_noting w L d _ 0 (sys0 d) notes0 s _ (od_0 w True d D) Lm (nsim0 d) R Fb) as (b' & m & N & _).
  rewrite map_app in N. cbn [map fst] in N. rewrite map_app in N. cbn [map fst] in N.
  apply noting_app in N as (n1 & N1 & N); [|rewrite map_length; congruence]. inversion N as [|? ? ? st ? ? ? Sy1 N2]. subst.
  apply noting_app in N2 as (n2 & N2 & N3); [|rewrite map_length; congruence]. inversion N3 as [|? ? ? st2 ? ? ? Sy2 _]. subst.
  assert (Kn : n_val n2 (owner h2 ho) ho ty = Some v).
  { rewrite Ow. rewrite (spared_noting _ _ _ _ (owner h ho) ho ty N2); [cbn [notes_next n_val]; eapply wrote_noted; eauto| |exact Nh].
    apply Forall_forall. intros q J. apply in_map_iff in J as (p & <- & J). rewrite Forall_forall in Sp. exact (Sp p J). }
  destruct Sy2 as ((Sd & Sn & _) & Sa). cbn [says] in Sd. unfold on_session in Sd. destruct (Z.leb_spec (d_count (b_dev (n_tab n2))) 0); [cbn; auto 6|].
  destruct (d_mode (b_dev (n_tab n2)) h2) as [rw|] eqn:Md; [|cbn; auto 6].
  destruct (listed (n_tab n2) h2 ho) eqn:Li.
  - left. symmetry. apply (Sa h2 ho _ rw _ eq_refl ltac:(lia) Md Li). cbn [answer a_type a_val]. rewrite Kn. cbn [filled]. rewrite Lb, Z.eqb_refl. reflexivity.
  - right. left. symmetry. specialize (Sn h2 rw eq_refl ltac:(lia) Md ltac:(discriminate)). unfold lookup_says in Sn. cbn [names refusal] in Sn. rewrite Li in Sn. exact Sn.
Qed.
Print Assumptions C123_last_written.

(** ** A history: two sessions, a token object, session objects with one handle, a key pair; written, written again, refused, read *)
Definition room (n : nat) : aval := AV (zeros n).
Definition named (l : list N) (t : template) : template := t ++ [mkA CKA_LABEL (AV l)].
Definition notes_made : list op := setup ++
  [OOpenSession 1 RW; userlogin upin; OOpenSession 1 RW;
   OCreateObject H2 (named [65; 66]%N (tokenly aes_tmpl)); OCreateObject H2 (named [67]%N aes_tmpl); OCreateObject H1 (named [68]%N aes_tmpl);
   OSetAttributeValue H1 (2^28 + 1) [mkA CKA_ID (AV [9]%N)]; OGetAttributeValue H2 (2^28 + 1) [mkA CKA_LABEL (room 2); mkA CKA_ID (room 4); mkA CKA_CLASS (room 8)];
   OGetAttributeValue H2 1 [mkA CKA_LABEL (room 1)]; OGetAttributeValue H1 1 [mkA CKA_LABEL (room 1); mkA CKA_LABEL (ANull 0)];
   OSetAttributeValue H1 1 [mkA CKA_LABEL (AV [69; 70]%N); mkA CKA_SIGN TRUE]; OSetAttributeValue H1 1 [mkA CKA_LABEL (AV [71]%N); mkA CKA_SIGN (AV [2]%N)];
   OGetAttributeValue H1 1 [mkA CKA_SIGN (room 1)]; OGetAttributeValue H2 1 [mkA CKA_LABEL (room 1)];
   OGenerateKeyPair H2 KP_RSA [mkA CKA_ID (AV [1]%N)] [mkA CKA_ID (AV [2]%N); mkA CKA_SIGN TRUE] (Some (GRsa (mkRsa 33 7 3 11 1 7 2 3)));
   OGetAttributeValue H2 2 [mkA CKA_ID (room 1)]; OGetAttributeValue H2 3 [mkA CKA_ID (room 1); mkA CKA_SIGN (room 1)]].
Example C123_case : (exists s, run tw (sys0 nofiles) (numbered 1 notes_made) = Ok (s, outs notes_made)) /\ laws (w_se tw) /\ (2 * zlen (numbered 1 notes_made) < 2^28)%Z /\
  Forall (fun c => bool_call (fst c)) (numbered 1 notes_made) /\
  skipn 10 (outs notes_made) = [OutH CKR_OK (2^28 + 1); OutH CKR_OK 1; OutH CKR_OK 1; OutRv CKR_OK;
    OutT CKR_OK [mkA CKA_LABEL (AV [65; 66]%N); mkA CKA_ID (AV [9]%N); mkA CKA_CLASS (ULONG CKO_SECRET_KEY)];
    OutT CKR_OK [mkA CKA_LABEL (AV [67]%N)]; OutT CKR_OK [mkA CKA_LABEL (AV [68]%N); mkA CKA_LABEL (ANull 1)];
    OutRv CKR_OK; OutRv CKR_ATTRIBUTE_VALUE_INVALID; OutT CKR_OK [mkA CKA_SIGN TRUE]; OutT CKR_OK [mkA CKA_LABEL (AV [67]%N)];
    OutH2 CKR_OK 2 3; OutT CKR_OK [mkA CKA_ID (AV [1]%N)]; OutT CKR_OK [mkA CKA_ID (AV [2]%N); mkA CKA_SIGN TRUE]].
Proof.
  split; [exists (after notes_made); vm_compute; reflexivity|]. split; [exact toy_laws|]. split; [vm_compute; reflexivity|].
  split; [apply bool_calls; vm_compute; reflexivity|]. vm_compute. reflexivity.
Qed.
(** What the machine knows in this history when the token object is read, and what it answers. *)
Fixpoint noted (n : notes) (cs : list op) (os : list out) : notes :=
  match cs, os with c :: cs, o :: os => noted (notes_next [] n c o) cs os | _, _ => n end.
Example C123_known : let n := noted notes0 (firstn 14 notes_made) (firstn 14 (outs notes_made)) in
  listed (n_tab n) H2 (2^28 + 1) = true /\ d_mode (b_dev (n_tab n)) H2 = Some true /\ owner H2 (2^28 + 1) = None /\
  answer (n_val n None (2^28 + 1)%Z) [mkA CKA_LABEL (room 2); mkA CKA_ID (room 4); mkA CKA_CLASS (room 8)] =
    Some [mkA CKA_LABEL (AV [65; 66]%N); mkA CKA_ID (AV [9]%N); mkA CKA_CLASS (ULONG CKO_SECRET_KEY)] /\
  n_val n (Some H2) 1%Z CKA_LABEL = Some [67]%N /\ n_val n (Some H1) 1%Z CKA_LABEL = Some [68]%N.
Proof. vm_compute. repeat split. Qed.
(** The last write of an attribute, calls that spare it, and the read. *)
Example C123_last_case : let c := nth 10 notes_made OInitialize in let l2 := firstn 10 (skipn 11 notes_made) in
  wrote c (nth 10 (outs notes_made) (OutRv CKR_OK)) H2 (2^28 + 1) (named [65; 66]%N (tokenly aes_tmpl)) /\
  told (named [65; 66]%N (tokenly aes_tmpl)) CKA_LABEL = Some [65; 66]%N /\
  Forall (spares None (2^28 + 1) CKA_LABEL) l2 /\ Forall (fun o => ~ In (2^28 + 1)%Z (new_handles o)) (firstn 10 (skipn 11 (outs notes_made))).
Proof.
  cbv zeta. split; [right; left; split; [vm_compute; reflexivity|split; [intros k K; vm_compute in K; discriminate K|vm_compute; reflexivity]]|]. split; [vm_compute; reflexivity|]. split.
  - match goal with |- Forall ?P ?l => let r := eval vm_compute in l in change (Forall P r) end.
    repeat (constructor; [first [exact Logic.I|left; discriminate|right; left; discriminate|right; right; repeat (constructor; [split; discriminate|]); constructor]|]). constructor.
  - vm_compute. repeat (constructor; [intros K; repeat (destruct K as [K|K]; [discriminate K|]); contradiction|]). constructor.
Qed.
