(** Property C56: the read/write lock. *)
From Verif Require Import Base RwLock.

Definition pc_eq (p q : pc) : bool :=
  match p, q with
  | Idle, Idle | RO1, RO1 | RO2, RO2 | RO3, RO3 | RO4, RO4 | Reading, Reading
  | UR1, UR1 | UR2, UR2 | UR3, UR3 | UR4, UR4 | RW1, RW1 | Writing, Writing => true
  | _, _ => false
  end.
Definition b2z (b : bool) : Z := if b then 1%Z else 0%Z.
Fixpoint cnt (p : pc) (l : list pc) : Z :=
  match l with [] => 0%Z | q :: r => (b2z (pc_eq p q) + cnt p r)%Z end.

Lemma cnt_app p l m : cnt p (l ++ m) = (cnt p l + cnt p m)%Z.
Proof. induction l as [|q l IH]; cbn [app cnt]; [lia|]. rewrite IH. lia. Qed.
Lemma cnt_nonneg p l : (0 <= cnt p l)%Z.
Proof. induction l as [|q l IH]; cbn [cnt]; [lia|]. destruct (pc_eq p q); cbn [b2z]; lia. Qed.
Lemma cnt_idle p n : p <> Idle -> cnt p (repeat Idle n) = 0%Z.
Proof. intros H. induction n; cbn [repeat cnt]; [reflexivity|]. rewrite IHn. now destruct p. Qed.
Lemma nth_split' (l : list pc) t p : nth_error l t = Some p -> l = firstn t l ++ p :: skipn (S t) l.
Proof.
  revert l. induction t as [|t IH]; intros [|q l] H; cbn in H; try discriminate.
  - now injection H as ->.
  - cbn [firstn skipn app]. f_equal. now apply IH.
Qed.
Lemma cnt_set r l t p q : nth_error l t = Some p ->
  cnt r (set_pc l t q) = (cnt r l - b2z (pc_eq r p) + b2z (pc_eq r q))%Z.
Proof.
  intros H. unfold set_pc. rewrite cnt_app. cbn [cnt].
  rewrite (nth_split' l t p H) at 3. rewrite cnt_app. cbn [cnt]. lia.
Qed.
Lemma cnt_pos l t p : nth_error l t = Some p -> (1 <= cnt p l)%Z.
Proof.
  intros H. rewrite (nth_split' l t p H), cnt_app. cbn [cnt].
  pose proof (cnt_nonneg p (firstn t l)). pose proof (cnt_nonneg p (skipn (S t) l)).
  assert (b2z (pc_eq p p) = 1%Z) by now destruct p. lia.
Qed.
Lemma cnt_find l p : (1 <= cnt p l)%Z -> exists t, nth_error l t = Some p.
Proof.
  induction l as [|q l IH]; cbn [cnt]; [lia|]. intros H.
  destruct (pc_eq p q) eqn:E.
  - exists 0. cbn. f_equal. now destruct p, q.
  - cbn [b2z] in H. destruct IH as [t Ht]; [lia|]. now exists (S t).
Qed.
Lemma cnt_two l t u p : t <> u -> nth_error l t = Some p -> nth_error l u = Some p ->
  (2 <= cnt p l)%Z.
Proof.
  revert t u. induction l as [|q l IH]; intros t u N Ht Hu; [now destruct t|].
  cbn [cnt]. destruct t as [|t], u as [|u]; try congruence; cbn in Ht, Hu.
  - injection Ht as ->. apply cnt_pos in Hu. assert (b2z (pc_eq p p) = 1%Z) by now destruct p. lia.
  - injection Hu as ->. apply cnt_pos in Ht. assert (b2z (pc_eq p p) = 1%Z) by now destruct p. lia.
  - specialize (IH t u ltac:(congruence) Ht Hu). destruct (pc_eq p q); cbn [b2z]; lia.
Qed.

Definition wheld (s : lst) : Z := match l_wr s with Some _ => 1%Z | None => 0%Z end.

Definition linv (s : lst) : Prop :=
  let c p := cnt p (l_th s) in
  (c RO2 + c RO3 + c RO4 + c UR2 + c UR3 + c UR4 = b2z (l_rd s))%Z /\
  (c RO3 + c RO4 + c Reading + c UR1 + c UR2 = l_cnt s)%Z /\
  ((c RO3 >= 1)%Z -> l_cnt s = 1%Z) /\ ((c UR3 >= 1)%Z -> l_cnt s = 0%Z) /\
  (c Writing + (if (c RO4 + c Reading + c UR1 + c UR2 + c UR3 =? 0)%Z then 0 else 1)
     = wheld s)%Z.

Lemma linv_init n : linv (l_init n).
Proof.
  unfold linv, l_init, wheld. cbn [l_th l_rd l_cnt l_wr]. rewrite !cnt_idle by discriminate.
  cbn [b2z]. repeat split; lia.
Qed.

Lemma linv_step s t w s' : linv s -> lstep s t w = Some s' -> linv s'.
Proof.
  unfold lstep, linv, wheld. intros I H.
  destruct (nth_error (l_th s) t) as [p|] eqn:E; [|discriminate].
  pose proof (cnt_pos _ _ _ E) as Hp.
  assert (P : forall r, (0 <= cnt r (l_th s))%Z) by (intros; apply cnt_nonneg).
  pose proof (P RO2). pose proof (P RO3). pose proof (P RO4). pose proof (P Reading).
  pose proof (P UR1). pose proof (P UR2). pose proof (P UR3). pose proof (P UR4).
  pose proof (P Writing). clear P.
  destruct s as [rd wr c th]. cbn [l_rd l_wr l_cnt l_th] in *.
  destruct I as (I1 & I2 & I3 & I4 & I5).
  destruct p; cbv zeta in H;
  repeat match type of H with
  | context [if ?b then _ else _] => destruct b eqn:?
  | context [match ?o with Some _ => _ | None => _ end] => destruct o eqn:?
  | context [match w with WantRO => _ | WantRW => _ end] => destruct w
  end; try discriminate; injection H as <-; cbn [l_rd l_wr l_cnt l_th];
  rewrite ?(cnt_set _ _ _ _ _ E); cbn [pc_eq b2z] in *; subst;
  try (destruct rd; cbn [b2z] in *);
  (split; [lia|]; split; [lia|]; split; [lia|]; split; [lia|]);
  repeat match goal with |- context [if ?b then _ else _] => destruct b eqn:? end;
  repeat match type of I5 with context [if ?b then _ else _] => destruct b eqn:? end;
  lia.
Qed.

Lemma linv_run sched s : linv s -> linv (lrun s sched).
Proof.
  revert s. induction sched as [|[t w] r IH]; intros s I; cbn [lrun]; [exact I|].
  apply IH. destruct (lstep s t w) eqn:E; [eapply linv_step; eauto|exact I].
Qed.

Lemma lrun_cons s t w r s' : lstep s t w = Some s' -> lrun s ((t, w) :: r) = lrun s' r.
Proof. intros H. cbn [lrun]. now rewrite H. Qed.

(** A thread is at a given place. *)
Definition at_pc (s : lst) (t : nat) (p : pc) : Prop := nth_error (l_th s) t = Some p.

(** A writer is alone. *)
Theorem C56_exclusion : forall n sched t u,
  let s := lrun (l_init n) sched in
  at_pc s t Writing -> t <> u -> ~ at_pc s u Writing /\ ~ at_pc s u Reading.
Proof.
  intros n sched t u s Ht N. destruct (linv_run sched _ (linv_init n)) as (_ & _ & _ & _ & I5).
  fold s in I5. assert (P : forall r, (0 <= cnt r (l_th s))%Z) by (intros; apply cnt_nonneg).
  pose proof (P RO4). pose proof (P UR1). pose proof (P UR2). pose proof (P UR3).
  pose proof (P Reading). pose proof (P Writing).
  unfold wheld in I5. unfold at_pc in *. split; intros Hu.
  - pose proof (cnt_two _ _ _ _ N Ht Hu).
    destruct (l_wr s), (_ =? 0)%Z in I5; lia.
  - pose proof (cnt_pos _ _ _ Ht). pose proof (cnt_pos _ _ _ Hu).
    destruct (l_wr s), (_ =? 0)%Z eqn:? in I5; lia.
Qed.
Print Assumptions C56_exclusion.

(** While somebody reads, [cnt] readers share the lock, and a new reader gets in
    by itself as soon as the read mutex is free. *)
Theorem C56_readers_share : forall n sched t u,
  let s := lrun (l_init n) sched in
  at_pc s t Reading -> at_pc s u Idle -> l_rd s = false ->
  let s' := lrun s [(u, WantRO); (u, WantRO); (u, WantRO); (u, WantRO)] in
  at_pc s' u Reading /\ at_pc s' t Reading.
Proof.
  intros n sched t u s Ht Hu Hrd s'.
  destruct (linv_run sched _ (linv_init n)) as (_ & I2 & _ & _ & _).
  fold s in I2. assert (P : forall r, (0 <= cnt r (l_th s))%Z) by (intros; apply cnt_nonneg).
  pose proof (P RO4). pose proof (P UR1). pose proof (P UR2). pose proof (P RO3).
  pose proof (cnt_pos _ _ _ Ht). unfold at_pc in *. clear P.
  assert (N : t <> u) by congruence.
  assert (G : forall l p q, nth_error l u = Some p -> nth_error (set_pc l u q) u = Some q).
  { intros l p q Hl. unfold set_pc. assert (u < length l) by (apply nth_error_Some; congruence).
    rewrite nth_error_app2; rewrite firstn_length, Nat.min_l by lia; [|lia].
    now rewrite Nat.sub_diag. }
  assert (G' : forall l p q, nth_error l u = Some p -> nth_error (set_pc l u q) t = nth_error l t).
  { intros l p q Hl. rewrite (nth_split' l u p Hl) at 2. unfold set_pc.
    assert (u < length l) by (apply nth_error_Some; congruence).
    destruct (Nat.lt_ge_cases t u).
    - rewrite !nth_error_app1 by (rewrite firstn_length; lia). reflexivity.
    - rewrite !nth_error_app2; rewrite firstn_length, Nat.min_l by lia; try lia.
      replace (t - u) with (S (t - u - 1)) by lia. reflexivity. }
  destruct s as [rd wr c th]. cbn [l_rd l_cnt l_th] in *. subst rd.
  pose proof (G _ _ RO1 Hu) as K1. pose proof (G _ _ RO2 K1) as K2. pose proof (G _ _ RO4 K2) as K3.
  assert (E4 : s' = mkL false wr (c + 1) (set_pc (set_pc (set_pc (set_pc th u RO1) u RO2) u RO4) u Reading)).
  { subst s'.
    rewrite (lrun_cons _ _ _ _ (mkL false wr c (set_pc th u RO1)))
      by (unfold lstep; cbn [l_th l_rd l_wr l_cnt]; now rewrite Hu).
    rewrite (lrun_cons _ _ _ _ (mkL true wr c (set_pc (set_pc th u RO1) u RO2)))
      by (unfold lstep; cbn [l_th l_rd l_wr l_cnt]; now rewrite K1).
    rewrite (lrun_cons _ _ _ _ (mkL true wr (c + 1) (set_pc (set_pc (set_pc th u RO1) u RO2) u RO4)))
      by (unfold lstep; cbn [l_th l_rd l_wr l_cnt]; rewrite K2; cbv zeta;
          now replace (c + 1 =? 1)%Z with false by lia).
    rewrite (lrun_cons _ _ _ _ (mkL false wr (c + 1)
        (set_pc (set_pc (set_pc (set_pc th u RO1) u RO2) u RO4) u Reading)))
      by (unfold lstep; cbn [l_th l_rd l_wr l_cnt]; now rewrite K3).
    reflexivity. }
  clearbody s'. subst s'.
  cbn [l_th]. split; [eapply G; eauto|].
  rewrite (G' _ _ _ K3), (G' _ _ _ K2), (G' _ _ _ K1), (G' _ _ _ Hu). exact Ht.
Qed.
Print Assumptions C56_readers_share.

(** No deadlock: if any thread is inside a lock or unlock call or holds the lock,
    some such thread can take a step. *)
Theorem C56_no_deadlock : forall n sched t p,
  let s := lrun (l_init n) sched in
  at_pc s t p -> p <> Idle ->
  exists u q s', at_pc s u q /\ q <> Idle /\ forall w, lstep s u w = Some s'.
Proof.
  intros n sched t p s Ht Np.
  destruct (linv_run sched _ (linv_init n)) as (I1 & I2 & I3 & I4 & I5). fold s in I1, I2, I3, I4, I5.
  assert (P : forall r, (0 <= cnt r (l_th s))%Z) by (intros; apply cnt_nonneg).
  assert (F : forall q, (1 <= cnt q (l_th s))%Z ->
            match q with Idle | RO1 | RO3 | UR1 | RW1 => False | _ => True end ->
            exists u q s', at_pc s u q /\ q <> Idle /\ forall w, lstep s u w = Some s').
  { intros q Hq Hn. destruct (cnt_find _ _ Hq) as [u Hu]. exists u, q. unfold lstep. rewrite Hu.
    clear I1 I2 I3 I4 I5 Hq.
    destruct q; try contradiction; cbv zeta;
    try match goal with |- context [(?a =? ?b)%Z] => destruct (a =? b)%Z end; eexists; (split; [exact Hu|split; [discriminate|reflexivity]]). }
  destruct (Z_le_dec 1 (cnt RO2 (l_th s))) as [?|N1]; [eapply F; eauto; exact I|].
  destruct (Z_le_dec 1 (cnt RO4 (l_th s))) as [?|N2]; [eapply F; eauto; exact I|].
  destruct (Z_le_dec 1 (cnt Reading (l_th s))) as [?|N3]; [eapply F; eauto; exact I|].
  destruct (Z_le_dec 1 (cnt UR2 (l_th s))) as [?|N4]; [eapply F; eauto; exact I|].
  destruct (Z_le_dec 1 (cnt UR3 (l_th s))) as [?|N5]; [eapply F; eauto; exact I|].
  destruct (Z_le_dec 1 (cnt UR4 (l_th s))) as [?|N6]; [eapply F; eauto; exact I|].
  destruct (Z_le_dec 1 (cnt Writing (l_th s))) as [?|N7]; [eapply F; eauto; exact I|].
  pose proof (P RO2). pose proof (P RO4). pose proof (P Reading). pose proof (P UR2).
  pose proof (P UR3). pose proof (P UR4). pose proof (P Writing). pose proof (P UR1).
  pose proof (P RO1). pose proof (P RO3). clear P F.
  unfold wheld in I5.
  destruct (Z_le_dec 1 (cnt RO3 (l_th s))) as [K3|N8].
  { destruct (cnt_find _ _ K3) as [u Hu]. exists u, RO3.
    destruct (l_wr s) eqn:Ew.
    - exfalso. destruct (_ =? 0)%Z eqn:? in I5; lia.
    - unfold lstep. rewrite Hu, Ew. eexists. split; [exact Hu|split; [discriminate|reflexivity]]. }
  assert (Hrd : l_rd s = false) by (destruct (l_rd s); cbn [b2z] in I1; [lia|reflexivity]).
  destruct (Z_le_dec 1 (cnt UR1 (l_th s))) as [K4|N9].
  { destruct (cnt_find _ _ K4) as [u Hu]. exists u, UR1. unfold lstep. rewrite Hu, Hrd.
    eexists. split; [exact Hu|split; [discriminate|reflexivity]]. }
  assert (Hwr : l_wr s = None) by (destruct (l_wr s); [destruct (_ =? 0)%Z eqn:? in I5; lia|reflexivity]).
  exists t, p. unfold lstep. pose proof (cnt_pos _ _ _ Ht). unfold at_pc in *. rewrite Ht, Hrd, Hwr.
  destruct p; try (exfalso; lia); try congruence; eexists; auto.
Qed.
Print Assumptions C56_no_deadlock.

(** Two readers share; a writer waits for both. *)
Definition sched_ex : list (nat * want) :=
  [(0, WantRO); (0, WantRO); (0, WantRO); (0, WantRO); (0, WantRO);
   (1, WantRO); (1, WantRO); (1, WantRO); (1, WantRO); (2, WantRW); (2, WantRW)].
Example C56_ex_readers : let s := lrun (l_init 3) sched_ex in
  at_pc s 0 Reading /\ at_pc s 1 Reading /\ at_pc s 2 RW1 /\ l_cnt s = 2%Z.
Proof. vm_compute. auto. Qed.
Example C56_ex_writer : let s := lrun (l_init 3) [(2, WantRW); (2, WantRW); (0, WantRO)] in
  at_pc s 2 Writing /\ at_pc s 0 RO1.
Proof. vm_compute. auto. Qed.

(** POSIX requires a mutex to be unlocked by the thread that locked it. The full
    claim, that the code does so, fails: reader 0 locks [write], reader 1 leaves
    last and unlocks it. *)
Definition C56_owner_claim : Prop := forall n sched t,
  let s := lrun (l_init n) sched in
  (at_pc s t UR3 \/ at_pc s t Writing) -> l_wr s = Some t.
Theorem C56_owner_refuted : ~ C56_owner_claim.
Proof.
  intros H.
  specialize (H 2 [(0, WantRO); (0, WantRO); (0, WantRO); (0, WantRO); (0, WantRO);
    (1, WantRO); (1, WantRO); (1, WantRO); (1, WantRO);
    (0, WantRO); (0, WantRO); (0, WantRO); (0, WantRO);
    (1, WantRO); (1, WantRO); (1, WantRO)] 1).
  vm_compute in H. specialize (H (or_introl eq_refl)). discriminate.
Qed.
Print Assumptions C56_owner_refuted.
