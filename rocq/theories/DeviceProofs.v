(** The library follows the reference machine of Device.v. *)
From Verif Require Import Base Ops Object Store Sys SysProofs SysProofs2 SysProofs3 SysProofs4 LoginProofs ToySys PropSys1 PropSys2 Device.

Definition mode (s : sys) (h : Z) : option bool := match sess_get s h with Some x => Some (is_rw x) | None => None end.
Definition tight (l : list session) : Prop := match l with [] => True | x :: _ => (2 < zlen l)%Z -> in_use x = true end.
Definition code (r : option role) : Z := match r with None => RW_PUBLIC | Some r => login_state r end.
Definition sim (s : sys) (d : dev) : Prop :=
  s_count s = d_count d /\ (forall h, mode s h = d_mode d h) /\ t_login (s_tok s) = code (d_who d) /\ tight (s_sess s).

(** ** The list of sessions *)
Lemma mode_modes s s' : modes (s_sess s') = modes (s_sess s) -> forall h, mode s' h = mode s h.
Proof.
  intros E h. unfold mode, sess_get. destruct (slot_ok (h / 2^16)); [|reflexivity].
  unfold find_sess. revert E. generalize (s_sess s') as b. induction (s_sess s) as [|x l IH]; intros [|y b] E; cbn in E; try discriminate; [reflexivity|].
  injection E as E0 Eu E. cbn. rewrite E0. destruct (ss_h x =? h)%Z; [|apply IH; exact E].
  unfold in_use, is_rw. rewrite Eu. destruct (negb _); [rewrite Eu|]; reflexivity.
Qed.
Lemma tight_modes l l' : modes l' = modes l -> tight l -> tight l'.
Proof.
  intros E. pose proof (modes_len _ _ E) as Z. destruct l as [|x l], l' as [|y l']; try discriminate E; [auto|].
  unfold tight. rewrite Z. cbn in E. injection E as _ E _. unfold in_use. rewrite E. auto.
Qed.
Lemma mode_none s : s_sess s = [] -> forall h, mode s h = None.
Proof. intros E h. unfold mode, sess_get. rewrite E. destruct (slot_ok _); reflexivity. Qed.
Lemma mode_in s x : inv s -> (0 < s_count s)%Z -> In x (s_sess s) -> in_use x = true -> mode s (ss_h x) = Some (is_rw x).
Proof.
  intros I C X U. unfold mode. rewrite (sess_get_uniq s x (inv_uniq _ I) X U); [reflexivity|].
  eapply handle_slot; [|exact X]. apply I. exact C.
Qed.
Lemma mode_out s h b : mode s h = Some b -> exists x, In x (s_sess s) /\ ss_h x = h /\ in_use x = true /\ is_rw x = b.
Proof.
  unfold mode. destruct (sess_get s h) as [x|] eqn:G; [|discriminate]. intros [= <-]. apply sess_get_in in G as (A & B & C & _). eauto.
Qed.
Lemma mode_free s x : inv s -> (0 < s_count s)%Z -> In x (s_sess s) -> in_use x = false -> mode s (ss_h x) = None.
Proof.
  intros I C X U. destruct (mode s (ss_h x)) eqn:M; [|reflexivity]. apply mode_out in M as (y & Y & E & V & _).
  assert (y = x) by (apply (NoDup_map_inj _ _ ss_h (s_sess s)); auto; apply inv_uniq; exact I). congruence.
Qed.
Lemma HH n : H n = sess_handle n. Proof. reflexivity. Qed.
Lemma numbers_in n : In n numbers <-> (1 <= n <= 70)%Z.
Proof.
  unfold numbers. rewrite in_map_iff. split.
  - intros (k & <- & J). apply in_seq in J. lia.
  - intros N. exists (Z.to_nat n). split; [lia|]. apply in_seq. lia.
Qed.
Lemma chain_nth l n : chain l -> (1 <= n <= zlen l)%Z -> exists x, In x l /\ ss_h x = H n.
Proof.
  intros C N. assert (J : In (H n) (map ss_h l)).
  { rewrite (chain_handles l C). rewrite HH. apply in_map. apply -> in_rev. apply in_map_iff. exists (Z.to_nat n). split; [lia|].
    apply in_seq. unfold zlen in N. lia. }
  apply in_map_iff in J as (x & E & X). eauto.
Qed.
Lemma chain_num l x : chain l -> In x l -> exists n, ss_h x = H n /\ (1 <= n <= zlen l)%Z.
Proof.
  intros C X. pose proof (chain_range l x C X) as R. exists (ss_h x - 65536)%Z. unfold sess_handle in R. unfold H. lia.
Qed.
Lemma chain_head x l : chain (x :: l) -> ss_h x = H (zlen (x :: l)).
Proof. intros [E C]. rewrite E, (chain_next l C). unfold H, sess_handle. unfold zlen. cbn [length]. lia. Qed.
Lemma first_greatest f l x : chain l -> find f l = Some x -> forall y, In y l -> (ss_h x < ss_h y)%Z -> f y = false.
Proof.
  induction l as [|a l IH]; [discriminate|]. intros C Fd y Y L. cbn in Fd. destruct (f a) eqn:Fa.
  - injection Fd as <-. exfalso. pose proof (chain_range _ _ C Y) as R. rewrite (chain_head _ _ C), HH in L. lia.
  - destruct Y as [<- | Y]; [exact Fa|]. apply IH; auto. apply C.
Qed.
Section D.
Variable s : sys.
Variable d : dev.
Hypothesis I : inv s.
Hypothesis Cn : (0 < s_count s)%Z.
Hypothesis S : sim s d.
Lemma okl : sess_ok (s_sess s). Proof. apply I. exact Cn. Qed.
Lemma open_in x : In x (s_sess s) -> is_open d (ss_h x) = in_use x.
Proof.
  intros X. unfold is_open. destruct S as (_ & M & _). rewrite <- M. destruct (in_use x) eqn:U.
  - rewrite (mode_in _ _ I Cn X U). reflexivity.
  - rewrite (mode_free _ _ I Cn X U). reflexivity.
Qed.
Lemma open_out h : is_open d h = true -> exists x, In x (s_sess s) /\ ss_h x = h /\ in_use x = true.
Proof.
  unfold is_open. destruct S as (_ & M & _). rewrite <- M. destruct (mode s h) as [b|] eqn:E; [|discriminate].
  intros _. apply mode_out in E as (x & X & Eh & U & _). eauto.
Qed.
Lemma any_open_sess : any_open d = existsb in_use (s_sess s).
Proof.
  destruct okl as (C & L & _). apply eq_iff_eq_true. unfold any_open. rewrite !existsb_exists. split.
  - intros (n & _ & O). apply open_out in O as (x & X & _ & U). eauto.
  - intros (x & X & U). destruct (chain_num _ _ C X) as (n & E & N). exists n. split; [apply numbers_in; lia|].
    rewrite <- E, open_in; assumption.
Qed.
Lemma any_ro_sess : any_ro d = existsb (fun x => ss_use x =? SESSION_RO)%Z (s_sess s).
Proof.
  destruct okl as (C & L & F). apply eq_iff_eq_true. unfold any_ro. rewrite !existsb_exists. destruct S as (_ & M & _). split.
  - intros (n & _ & O). rewrite <- M in O. destruct (mode s (H n)) as [[]|] eqn:E; try discriminate.
    apply mode_out in E as (x & X & _ & U & W). exists x. split; [exact X|]. rewrite Forall_forall in F. destruct (F x X) as [K _].
    unfold in_use in U. unfold is_rw in W. destruct K as [K|[K|[K|[]]]]; rewrite <- K in *; try discriminate; reflexivity.
  - intros (x & X & U). destruct (chain_num _ _ C X) as (n & E & N). exists n. split; [apply numbers_in; lia|].
    apply Z.eqb_eq in U. rewrite <- E, <- M, (mode_in _ _ I Cn X); [|unfold in_use; rewrite U; reflexivity]. unfold is_rw. rewrite U. reflexivity.
Qed.
Lemma within_sess n : within d n <-> (1 <= n <= zlen (s_sess s))%Z.
Proof.
  destruct okl as (C & L & _). destruct S as (_ & _ & _ & T). unfold within. split.
  - intros [? | (N & m & Nm & O)]; [lia|]. apply open_out in O as (x & X & E & _). destruct (chain_num _ _ C X) as (k & Ek & K). 
    rewrite E in Ek. unfold H in Ek. lia.
  - intros N. destruct (Z.leb_spec n 2); [left; lia|right]. split; [lia|].
    destruct (s_sess s) as [|x r] eqn:El; [unfold zlen in L; cbn in L; lia|]. exists (zlen (x :: r)). split; [lia|].
    rewrite <- (chain_head x r C), open_in; [|rewrite El; left; reflexivity]. apply T. lia.
Qed.
Lemma full_sess : full d = true <-> zlen (s_sess s) = 70%Z /\ first_unused (s_sess s) = None.
Proof.
  destruct okl as (C & L & _). unfold full. rewrite forallb_forall. split.
  - intros F. assert (Z : zlen (s_sess s) = 70%Z).
    { specialize (F 70%Z). rewrite numbers_in in F. specialize (F ltac:(lia)). apply open_out in F as (x & X & E & _).
      destruct (chain_num _ _ C X) as (k & Ek & K). rewrite E in Ek. unfold H in Ek. lia. }
    split; [exact Z|]. unfold first_unused. destruct (find _ _) as [x|] eqn:E; [|reflexivity]. exfalso.
    apply find_some in E as [X U]. destruct (chain_num _ _ C X) as (k & Ek & K). specialize (F k). rewrite numbers_in, <- Ek, open_in in F by exact X.
    rewrite F in U by lia. discriminate.
  - intros [Z U] n N. apply numbers_in in N. destruct (chain_nth _ n C ltac:(lia)) as (x & X & <-). rewrite open_in by exact X.
    apply (find_none _ _ U) in X. apply negb_false_iff in X. exact X.
Qed.
End D.
Lemma reopen s l l' : modes l' = modes l -> forall h, mode (set_sess s l') h = mode (set_sess s l) h.
Proof. intros E. apply mode_modes. exact E. Qed.

(** ** C_OpenSession *)
Lemma serial_bit fl : wants_serial fl = negb (Z.land fl CKF_SERIAL_SESSION =? 0)%Z.
Proof. unfold wants_serial. symmetry. change CKF_SERIAL_SESSION with (2 ^ 2)%Z. apply land_bit. lia. Qed.
Lemma rw_bit fl : wants_rw fl = negb (Z.land fl CKF_RW_SESSION =? 0)%Z.
Proof. unfold wants_rw. symmetry. change CKF_RW_SESSION with (2 ^ 1)%Z. apply land_bit. lia. Qed.
Lemma code_so x : code x = RW_SO <-> x = Some SO.
Proof. destruct x as [[]|]; cbn; split; intros E; congruence || discriminate. Qed.
Lemma mode_upd s l x : sess_ok l -> In x l -> forall y, ss_h y = ss_h x -> in_use y = true -> (0 < s_count s)%Z ->
  inv (put_sess (set_sess s l) y) -> forall h,
  mode (put_sess (set_sess s l) y) h = if (h =? ss_h x)%Z then Some (is_rw y) else mode (set_sess s l) h.
Proof.
  intros OK X y E U Cn I h. destruct (Z.eqb_spec h (ss_h x)) as [->|N].
  - rewrite <- E. apply mode_in; auto. cbn [put_sess set_sess s_sess]. eapply upd_sess_self; [exact X|exact E].
  - unfold mode, sess_get. destruct (slot_ok _); [|reflexivity]. cbn [put_sess set_sess s_sess].
    replace (find_sess (upd_sess l y) h) with (find_sess l h); [reflexivity|].
    unfold upd_sess, find_sess. clear - N E. induction l as [|a l IH]; [reflexivity|]. cbn. destruct (ss_h a =? ss_h y)%Z eqn:K.
    + apply Z.eqb_eq in K. destruct (Z.eqb_spec (ss_h a) h); [congruence|]. destruct (Z.eqb_spec (ss_h y) h); [congruence|]. exact IH.
    + destruct (ss_h a =? h)%Z; [reflexivity|exact IH].
Qed.
Lemma upd_len l y : zlen (upd_sess l y) = zlen l.
Proof. unfold upd_sess, zlen. rewrite map_length. reflexivity. Qed.
Lemma open_sim s d fl s' o : inv s -> inv s' -> (0 < s_count s)%Z -> sim s d -> OpenSession s fl = Ok (s', o) ->
  (if negb (wants_serial fl) then o = OutRv CKR_SESSION_PARALLEL_NOT_SUPPORTED
   else match wants_rw fl, d_who d with
        | false, Some SO => o = OutRv CKR_SESSION_READ_WRITE_SO_EXISTS
        | _, _ => if full d then o = OutRv CKR_SESSION_COUNT else exists n, chosen d n /\ o = OutH CKR_OK (H n)
        end) /\ sim s' (next d (OOpenSession 1 fl) o).
Proof.
  intros I I' Cn S Hs. pose proof (okl s I Cn) as (C & L & F). pose proof S as (Sc & Sm & Sl & St).
  unfold OpenSession in Hs. rewrite serial_bit, rw_bit. destruct (Z.land fl CKF_SERIAL_SESSION =? 0)%Z eqn:B1; cbn [negb].
  { unfold rv_ in Hs. injection Hs as <- <-. split; [reflexivity|]. exact S. }
  assert (SO1 : (t_login (s_tok s) =? RW_SO)%Z = match d_who d with Some SO => true | _ => false end).
  { rewrite Sl. destruct (d_who d) as [[]|]; reflexivity. }
  rewrite SO1 in Hs. set (rw := negb (Z.land fl CKF_RW_SESSION =? 0)%Z) in *.
  destruct (andb (negb rw) _) eqn:B2.
  { unfold rv_ in Hs. injection Hs as <- <-. destruct rw; [discriminate B2|]. destruct (d_who d) as [[]|]; try discriminate B2. split; [reflexivity|exact S]. }
  assert (GO : forall P Q : Prop, Q -> match rw, d_who d with false, Some SO => P | _, _ => Q end).
  { intros P Q q. destruct rw; [exact q|]. destruct (d_who d) as [[]|]; try exact q. discriminate B2. }
  assert (DONE : forall l x, sess_ok l -> In x l -> in_use x = false -> (forall h, mode (set_sess s l) h = mode s h) -> tight (upd_sess l (set_use x (if rw then SESSION_RW else SESSION_RO))) ->
     Ok (put_sess (set_sess s l) (set_use x (if rw then SESSION_RW else SESSION_RO)), OutH CKR_OK (ss_h x)) = Ok (s', o) -> sim s' (next d (OOpenSession 1 fl) o)).
  { intros l x OK X U M T Es. injection Es as <- <-. cbn [next out_rv]. change (negb (CKR_OK =? CKR_OK)%Z) with false. cbv iota.
    split; [exact Sc|]. split; [|split; [exact Sl|exact T]]. intros h. cbn [d_mode]. unfold with_mode.
    rewrite (mode_upd s l x OK X); auto; [|destruct rw; reflexivity]. rewrite M, Sm, rw_bit. fold rw.
    destruct (h =? ss_h x)%Z; [|reflexivity]. destruct rw; reflexivity. }
  destruct (first_unused (s_sess s)) as [x|] eqn:FU.
  - pose proof FU as FU0. unfold first_unused in FU0. apply find_some in FU0 as [X U]. apply negb_true_iff in U.
    split.
    + apply GO. assert (NF : full d = false).
      { apply not_true_is_false. intros Fl. apply (full_sess s d I Cn S) in Fl as [_ Fl]. congruence. }
      rewrite NF. destruct (chain_num _ _ C X) as (n & En & N). exists n. injection Hs as _ <-. split; [|rewrite En; reflexivity].
      split; [apply numbers_in; lia|]. rewrite <- En, (open_in s d I Cn S x X). split; [exact U|]. split; [|left; apply (within_sess s d I Cn S); lia].
      intros m Lm W. apply (within_sess s d I Cn S) in W. destruct (chain_nth _ m C W) as (y & Y & Ey). rewrite <- Ey, (open_in s d I Cn S y Y).
      apply negb_false_iff. apply (first_greatest _ _ _ C FU y Y). rewrite En, Ey. unfold H. lia.
    + apply (DONE (s_sess s) x); auto; [split; auto|]. unfold tight. destruct (s_sess s) as [|a r] eqn:El; [exact Logic.I|].
      unfold upd_sess at 1. cbn [map]. rewrite upd_len. intros Z2. destruct (ss_h a =? _)%Z; [destruct rw; reflexivity|apply St; exact Z2].
  - destruct (match s_sess s with x :: _ => (sess_id x =? SESSION_MAX)%Z | [] => false end) eqn:B3.
    + unfold rv_ in Hs. injection Hs as <- <-. split; [|exact S]. apply GO.
      assert (Fl : full d = true); [|rewrite Fl; reflexivity]. apply (full_sess s d I Cn S). split; [|exact FU].
      destruct (s_sess s) as [|a r] eqn:El; [discriminate|]. rewrite <- El in *. rewrite (chain_id _ a r C) in B3; [|lia|exact El]. unfold SESSION_MAX in B3. lia.
    + assert (Z70 : (zlen (s_sess s) < 70)%Z).
      { destruct (s_sess s) as [|a r] eqn:El; [unfold zlen in L; cbn in L; lia|]. rewrite <- El in *. rewrite (chain_id _ a r C) in B3; [|lia|exact El].
        unfold SESSION_MAX in B3. lia. }
      assert (OK : sess_ok (s_sess s)) by (split; auto).
      destruct (new_sess_ok _ OK Z70) as [OK2 _].
      assert (Hn : ss_h (new_sess (s_sess s)) = H (zlen (s_sess s) + 1)).
      { pose proof (chain_next _ C) as E. unfold next_h in E. rewrite HH, <- E. reflexivity. }
      split.
      * apply GO. assert (NF : full d = false).
        { apply not_true_is_false. intros Fl. apply (full_sess s d I Cn S) in Fl as [Fl _]. lia. }
        rewrite NF. exists (zlen (s_sess s) + 1)%Z. rewrite <- Hn. split; [|injection Hs as _ <-; reflexivity]. rewrite ?Hn.
        split; [apply numbers_in; lia|]. split; [|split].
        -- apply not_true_is_false. intros O. apply (open_out s d S) in O as (x & X & E & _). destruct (chain_num _ _ C X) as (k & Ek & K).
           rewrite E in Ek. unfold H in Ek. lia.
        -- intros m Lm W. apply (within_sess s d I Cn S) in W. lia.
        -- right. intros m Lm. destruct (chain_nth _ m C ltac:(lia)) as (y & Y & <-). rewrite (open_in s d I Cn S y Y).
           apply (find_none _ _ FU) in Y. apply negb_false_iff in Y. exact Y.
      * apply (DONE (add_sess (s_sess s)) (new_sess (s_sess s))); auto; [left; reflexivity| |].
        -- intros h. unfold mode, sess_get. destruct (slot_ok _); [|reflexivity]. cbn [set_sess s_sess add_sess find_sess find].
           destruct (ss_h (new_sess (s_sess s)) =? h)%Z eqn:K; [|reflexivity]. apply Z.eqb_eq in K. cbn [in_use].
           destruct (find_sess (s_sess s) h) as [y|] eqn:Fy; [|reflexivity]. exfalso. apply find_sess_in in Fy as [Y <-].
           destruct (chain_num _ _ C Y) as (k & Ek & Kk). rewrite Hn, Ek in K. unfold H in K. lia.
        -- unfold tight, upd_sess, add_sess. cbn [map]. change (ss_h (set_use (new_sess (s_sess s)) (if rw then SESSION_RW else SESSION_RO))) with (ss_h (new_sess (s_sess s))).
           rewrite Z.eqb_refl. intros _. destruct rw; reflexivity.
Qed.

(** ** C_CloseSession *)
Lemma drop_head l l' : drop_unused l = Ok l' -> match l' with [] => True | x :: _ => in_use x = true \/ (sess_id x <= 2)%Z end.
Proof.
  induction l as [|x r IH]; cbn; intros E; [injection E as <-; exact Logic.I|].
  destruct (andb _ _) eqn:B; [destruct (sess_final x); cbn [bind] in E; try discriminate; apply IH; exact E|].
  injection E as <-. apply andb_false_iff in B as [B|B]; [left; apply negb_false_iff; exact B|right; unfold SESSION_MIN in B; lia].
Qed.
Lemma close_tight l x l' : sess_ok l -> In x l -> tight l -> close_sess l x = Ok l' -> tight l'.
Proof.
  intros OK X T Ec. pose proof (close_sess_ok _ _ _ OK X Ec) as ((C' & L' & _) & _). destruct OK as (C & L & F). unfold close_sess in Ec.
  destruct (sess_final x) as [x'| |] eqn:E; cbn [bind] in Ec; try discriminate. destruct l as [|y r]; [injection Ec as <-; exact Logic.I|].
  destruct (andb _ _) eqn:B.
  - apply drop_head in Ec. destruct l' as [|z l']; [exact Logic.I|]. intros Z2. destruct Ec as [Ec|Ec]; [exact Ec|].
    rewrite (chain_id (z :: l') z l' C' ltac:(lia) eq_refl) in Ec. lia.
  - injection Ec as <-. unfold tight, upd_sess at 1. cbn [map]. rewrite upd_len. intros Z2. specialize (T Z2).
    assert (E1 : ss_h x' = ss_h x) by (rewrite Forall_forall in F; apply sess_final_ok in E; [tauto|apply F; exact X]). rewrite E1.
    destruct (ss_h y =? ss_h x)%Z eqn:K; [|exact T]. exfalso. apply Z.eqb_eq in K.
    assert (y = x) by (apply (NoDup_map_inj _ _ ss_h (y :: r)); auto; [apply (chain_uniq (y :: r)); exact C|left; reflexivity]). subst y.
    rewrite (chain_id (x :: r) x r C ltac:(lia) eq_refl) in B. unfold SESSION_MIN in B. cbn [andb] in B. lia.
Qed.
Lemma close_mode s x l : inv s -> (0 < s_count s)%Z -> In x (s_sess s) -> close_sess (s_sess s) x = Ok l -> forall h,
  mode (set_sess s l) h = if (h =? ss_h x)%Z then None else mode s h.
Proof.
  intros I Cn X Ec h. pose proof (close_sess_ok _ _ _ (okl s I Cn) X Ec) as (OK' & K2 & K3).
  destruct (Z.eqb_spec h (ss_h x)) as [->|N].
  - destruct (mode (set_sess s l) (ss_h x)) eqn:M; [|reflexivity]. apply mode_out in M as (y & Y & E & U & _). cbn in Y.
    destruct (K2 y Y) as [[_ ?]|(_ & Z & _)]; [congruence|]. unfold in_use in U. rewrite Z in U. discriminate.
  - assert (G : sess_get (set_sess s l) h = sess_get s h); [|unfold mode; rewrite G; reflexivity].
    unfold sess_get. destruct (slot_ok _); [|reflexivity]. cbn [set_sess s_sess]. destruct (find_sess (s_sess s) h) as [y|] eqn:Fy.
    + apply find_sess_in in Fy as [Y <-]. destruct (in_use y) eqn:U.
      * rewrite (find_sess_uniq l y); [rewrite U; reflexivity|apply chain_uniq; apply OK'|apply K3; auto].
      * destruct (find_sess l (ss_h y)) as [z|] eqn:Fz; [|reflexivity]. apply find_sess_in in Fz as [Z Ez].
        destruct (K2 z Z) as [[Zs _]|(? & _ & _)]; [|congruence].
        assert (z = y) by (apply (NoDup_map_inj _ _ ss_h (s_sess s)); auto; apply inv_uniq; exact I). subst z. rewrite U. reflexivity.
    + destruct (find_sess l h) as [z|] eqn:Fz; [|reflexivity]. apply find_sess_in in Fz as [Z Ez].
      destruct (K2 z Z) as [[Zs _]|(? & _ & _)]; [|congruence]. unfold find_sess in Fy. apply (find_none _ _ Fy) in Zs. lia.
Qed.
Lemma same_events d s t : sim s d -> t_login t = t_login (s_tok s) -> sim (set_tok s t) d.
Proof. intros (A & B & C & D) E. split; [exact A|]. split; [|split; [cbn; congruence|exact D]]. intros h. rewrite <- B. reflexivity. Qed.
Lemma login_to d s t r : sim s d -> t_login t = code r -> sim (set_tok s t) (Dev (d_count d) (d_mode d) r).
Proof. intros (A & B & C & D) E. split; [exact A|]. split; [|split; [exact E|exact D]]. intros h. cbn [d_mode]. rewrite <- B. reflexivity. Qed.
Lemma modes_sim d s s' : sim s d -> modes (s_sess s') = modes (s_sess s) -> s_count s' = s_count s -> t_login (s_tok s') = t_login (s_tok s) -> sim s' d.
Proof.
  intros (A & B & C & D) E1 E2 E3. split; [congruence|]. split; [|split; [congruence|eapply tight_modes; [exact E1|exact D]]].
  intros h. rewrite <- B. apply mode_modes. exact E1.
Qed.
Lemma modes_sim_to d s s' r : sim s d -> modes (s_sess s') = modes (s_sess s) -> s_count s' = s_count s -> t_login (s_tok s') = code r -> sim s' (Dev (d_count d) (d_mode d) r).
Proof.
  intros (A & B & C & D) E1 E2 E3. split; [cbn; congruence|]. split; [|split; [exact E3|eapply tight_modes; [exact E1|exact D]]].
  intros h. cbn [d_mode]. rewrite <- B. apply mode_modes. exact E1.
Qed.
