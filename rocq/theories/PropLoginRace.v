(** Property C07: lock-out under concurrent logins. *)
From Verif Require Import Base LoginRace.

(** The claim: once three failures have been recorded (more than two and nobody
    has logged in since), an attempt made before the lock-out ends is refused. *)
Definition C07_claim (base : Z) : Prop := forall n s now,
  let k := krun base (k_init n) s in
  (3 <= k_failed k)%Z -> (now <= k_last k + k_tmo k)%Z -> fst (check now k) = false.

(** All attempts of a schedule happen at one instant. *)
Definition at_instant (now : Z) (s : sched) : Prop := Forall (fun x => snd x = (now, false)) s.

(** What a lock-out must at least give: at one instant, only boundedly many wrong
    PINs are compared. *)
Definition C07_bounded_claim (base : Z) : Prop := exists bound, forall n now s,
  at_instant now s -> k_cmp (krun base (k_init n) s) <= bound.

Definition four : sched :=
  flat_map (fun i => map (fun t => (t, (1000%Z, false))) [0; 1; 2; 3])
           [0; 1; 2; 3].

Lemma after_four_eq base : krun base (k_init 4) four =
  mkK 4 1000 base false [TIdle; TIdle; TIdle; TIdle] 4.
Proof.
  vm_compute. reflexivity.
Qed.

(** Four threads pass the check together; their failures take the counter past 3,
    after which the lock-out test never fires. *)
Theorem C07_refuted : ~ C07_claim 60 /\ ~ C07_claim 600.
Proof.
  assert (G : forall base, ~ C07_claim base \/ (base < 0)%Z).
  { intros base. destruct (Z_lt_dec base 0) as [|Hb]; [now right|left].
    intros H. specialize (H 4 four 1000%Z).
    cbv zeta in H. 
    rewrite after_four_eq in H. cbn [k_failed k_last k_tmo] in H.
    specialize (H ltac:(lia) ltac:(lia)). discriminate. }
  split; [destruct (G 60%Z)|destruct (G 600%Z)]; auto; lia.
Qed.
Print Assumptions C07_refuted.

Lemma krun_app base k s s' : krun base k (s ++ s') = krun base (krun base k s) s'.
Proof. revert k. induction s as [|[t a] s IH]; intros k; cbn [app krun]; auto. Qed.

Definition one_try : sched := repeat (0, (1000%Z, false)) 4.

Lemma past_three base m f l tm : (3 < f)%Z ->
  krun base (mkK f l tm false [TIdle; TIdle; TIdle; TIdle] m) one_try =
  mkK (f + 1) l tm false [TIdle; TIdle; TIdle; TIdle] (S m).
Proof.
  intros Hf. unfold one_try. cbn [repeat].
  set (idle3 := [TIdle; TIdle; TIdle]).
  assert (E1 : kstep base (mkK f l tm false (TIdle :: idle3) m) 0 (1000%Z, false) =
               mkK f l tm false (TCheck 1000 false :: idle3) m) by reflexivity.
  assert (E2 : kstep base (mkK f l tm false (TCheck 1000 false :: idle3) m) 0 (1000%Z, false) =
               mkK f l tm false (TCmp 1000 false :: idle3) m).
  { unfold kstep, check, MAXF. cbn [nth_error k_th k_in k_failed].
    now replace (f =? 3)%Z with false by lia. }
  assert (E3 : kstep base (mkK f l tm false (TCmp 1000 false :: idle3) m) 0 (1000%Z, false) =
               mkK f l tm false (TUpd 1000 false :: idle3) (S m)) by reflexivity.
  assert (E4 : kstep base (mkK f l tm false (TUpd 1000 false :: idle3) (S m)) 0 (1000%Z, false) =
               mkK (f + 1) l tm false (TIdle :: idle3) (S m)).
  { unfold kstep, MAXF. cbn [nth_error k_th k_in k_failed].
    now replace (f + 1 =? 3)%Z with false by lia. }
  change [TIdle; TIdle; TIdle; TIdle] with (TIdle :: idle3). clearbody idle3.
  cbn [krun]. rewrite E1, E2, E3, E4. reflexivity.
Qed.

(** Any number of wrong PINs can be compared within one second. *)
Theorem C07_unbounded_refuted : forall base, ~ C07_bounded_claim base.
Proof.
  intros base [bound H].
  assert (G : forall j, exists s, at_instant 1000 s /\
    krun base (k_init 4) s = mkK (4 + Z.of_nat j) 1000 base false
      [TIdle; TIdle; TIdle; TIdle] (4 + j)).
  { induction j as [|j (s & Hs & E)].
    - exists four. split; [|        rewrite after_four_eq; f_equal; lia].
      unfold at_instant, four. cbn [flat_map map app]. repeat (constructor; [reflexivity|]). constructor.
    - exists (s ++ one_try). split.
      + apply Forall_app. split; [exact Hs|]. repeat (constructor; [reflexivity|]). constructor.
      + rewrite krun_app, E, past_three by lia. f_equal; lia. }
  destruct (G bound) as (s & Hs & E). specialize (H 4 1000%Z s Hs). rewrite E in H.
  cbn [k_cmp] in H. lia.
Qed.
Print Assumptions C07_unbounded_refuted.

(** Partial: what does hold for every schedule is that an attempt is refused while
    the counter is exactly three, and the full claim holds for schedules in which
    no attempt starts before the previous one has ended. Missing: overlapping
    attempts, for which the claim is false. *)
Definition busy (p : tpc) : bool := match p with TIdle => false | _ => true end.

(** No two threads are inside C_Login at once, at any point of the schedule. *)
Fixpoint serial (base : Z) (k : lk) (s : sched) : Prop :=
  length (filter busy (k_th k)) <= 1 /\
  match s with [] => True | (t, a) :: r => serial base (kstep base k t a) r end.

Definition others_idle (l : list tpc) (t : nat) : Prop :=
  forall u p, u <> t -> nth_error l u = Some p -> p = TIdle.

Definition kinv (k : lk) : Prop :=
  (0 <= k_failed k <= 3)%Z /\
  (forall t now good, nth_error (k_th k) t = Some (TCmp now good) -> (k_failed k <= 2)%Z) /\
  (forall t now good, nth_error (k_th k) t = Some (TUpd now good) -> (k_failed k <= 2)%Z).

Lemma filter_busy_two l t u p q : t <> u -> nth_error l t = Some p -> nth_error l u = Some q ->
  busy p = true -> busy q = true -> 2 <= length (filter busy l).
Proof.
  revert t u. induction l as [|r l IH]; intros t u N Ht Hu Hp Hq; [now destruct t|].
  assert (G : forall v x, nth_error l v = Some x -> busy x = true -> 1 <= length (filter busy l)).
  { intros v x Hv Hx. apply nth_error_In in Hv.
    assert (I : In x (filter busy l)) by (apply filter_In; auto).
    destruct (filter busy l); [contradiction|cbn; lia]. }
  cbn [filter]. destruct t as [|t], u as [|u]; try congruence; cbn in Ht, Hu.
  - injection Ht as ->. rewrite Hp. cbn [length]. apply G in Hu; auto. lia.
  - injection Hu as ->. rewrite Hq. cbn [length]. apply G in Ht; auto. lia.
  - specialize (IH t u ltac:(congruence) Ht Hu Hp Hq). destruct (busy r); cbn [length]; lia.
Qed.

Lemma nth_set l t p u : t < length l ->
  nth_error (set_t l t p) u = if Nat.eq_dec u t then Some p else nth_error l u.
Proof.
  intros H. unfold set_t. destruct (Nat.eq_dec u t) as [->|N].
  - rewrite nth_error_app2; rewrite firstn_length, Nat.min_l by lia; [|lia].
    now rewrite Nat.sub_diag.
  - destruct (Nat.lt_ge_cases u t).
    + rewrite nth_error_app1 by (rewrite firstn_length; lia).
      rewrite <- (firstn_skipn t l) at 2. now rewrite nth_error_app1 by (rewrite firstn_length; lia).
    + rewrite nth_error_app2; rewrite firstn_length, Nat.min_l by lia; [|lia].
      rewrite <- (firstn_skipn (S t) l) at 2.
      rewrite nth_error_app2; rewrite firstn_length, Nat.min_l by lia; [|lia].
      replace (u - t) with (S (u - S t)) by lia. reflexivity.
Qed.

Lemma kinv_step base k t a : length (filter busy (k_th k)) <= 1 -> kinv k -> kinv (kstep base k t a).
Proof.
  intros Hs (I1 & I2 & I3). unfold kstep.
  destruct (nth_error (k_th k) t) as [p|] eqn:E; [|now split].
  assert (L : t < length (k_th k)) by (apply nth_error_Some; congruence).
  assert (O : busy p = true -> forall u q, u <> t -> nth_error (k_th k) u = Some q -> busy q = false).
  { intros Hp u q N Hq. destruct (busy q) eqn:B; [|reflexivity].
    pose proof (filter_busy_two _ _ _ _ _ N Hq E B Hp). lia. }
  unfold check. destruct p as [|now good|now good|now good|]; cbv zeta;
  repeat match goal with
  | |- context [if ?b then _ else _] =>
      match b with Nat.eq_dec _ _ => fail 1 | _ => destruct b eqn:? end
  end;
  unfold kinv; cbn [k_failed k_th k_last k_tmo k_in k_cmp]; unfold MAXF in *;
  (split; [try lia; try (specialize (I3 _ _ _ E); lia) | split; intros u now' good'; rewrite nth_set by exact L;
     destruct (Nat.eq_dec u t) as [->|N]; intros H; try discriminate; try lia;
     try (injection H as -> ->); try lia;
     first [ exact (I2 _ _ _ H) | exact (I3 _ _ _ H) | exact (I2 _ _ _ E)
           | discriminate (O eq_refl _ _ N H) | specialize (I2 _ _ _ H); lia
           | specialize (I3 _ _ _ H); lia | lia ]]).
Qed.

Lemma kinv_run base s k : kinv k -> serial base k s -> kinv (krun base k s).
Proof.
  revert k. induction s as [|[t a] s IH]; intros k I H; cbn [krun]; [exact I|].
  destruct H as [H1 H2]. apply IH; [now apply kinv_step|exact H2].
Qed.

Theorem C07_serial_partial : forall base n s now,
  serial base (k_init n) s ->
  let k := krun base (k_init n) s in
  (3 <= k_failed k)%Z -> (now <= k_last k + k_tmo k)%Z -> fst (check now k) = false.
Proof.
  intros base n s now Hs k Hf Hn.
  assert (I : kinv k).
  { apply kinv_run; [|exact Hs]. split; [cbn; lia|].
    split; intros t now' good H; apply nth_error_In, repeat_spec in H; discriminate. }
  destruct I as [I _]. unfold check, MAXF. destruct (k_in k); [reflexivity|].
  replace (k_failed k =? 3)%Z with true by lia.
  now replace (k_last k + k_tmo k <? now)%Z with false by lia.
Qed.
Print Assumptions C07_serial_partial.

(** Three serial failures lock the token. *)
Definition three : sched :=
  flat_map (fun i => repeat (i, (1000%Z, false)) 4) [0; 1; 2].
Example C07_ex_serial : serial 60 (k_init 4) three /\
  let k := krun 60 (k_init 4) three in
  k_failed k = 3%Z /\ k_cmp k = 3 /\ (k_last k + k_tmo k = 1060)%Z /\
  fst (check 1060 k) = false /\ fst (check 1061 k) = true.
Proof. vm_compute. repeat split; lia. Qed.
