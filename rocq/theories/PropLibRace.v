(** C83: setting up and tearing down the library from several threads. *)
From Coq Require Import List Arith Lia Bool ZArith.
Import ListNotations.
From Verif Require Import LibRace.

(** ** C83: the library is set up once, torn down once, and used only in between,
    whenever no thread calls C_Finalize more often than C_Initialize was called *)
Definition balanced (s : state) (o : op) : Prop := o = Final -> (0 < cnt (sh s))%Z.
Definition C83_claim : Prop := forall n s, steps balanced (init n) s -> bad (sh s) = false.

Fixpoint moves (l : list (nat * op)) (s : state) : option state :=
  match l with
  | [] => Some s
  | (i, o) :: r =>
      match o with
      | Final => if (0 <? cnt (sh s))%Z then match move s i o with Some s' => moves r s' | None => None end else None
      | _ => match move s i o with Some s' => moves r s' | None => None end
      end
  end.
Lemma moves_steps l : forall a s s', steps balanced a s -> moves l s = Some s' -> steps balanced a s'.
Proof.
  induction l as [|[i o] l IH]; intros a s s' S E; cbn [moves] in E; [injection E as <-; exact S|].
  assert (B : balanced s o /\ exists s1, move s i o = Some s1 /\ moves l s1 = Some s').
  { destruct o.
    - destruct (move s i Init) as [s1|]; [|discriminate E]. split; [intros X; discriminate X|eauto].
    - destruct (0 <? cnt (sh s))%Z eqn:P; [|discriminate E]. apply Z.ltb_lt in P.
      destruct (move s i Final) as [s1|]; [|discriminate E]. split; [intros _; exact P|eauto].
    - destruct (move s i Call) as [s1|]; [|discriminate E]. split; [intros X; discriminate X|eauto]. }
  destruct B as [B (s1 & M & R)]. eapply IH; [|exact R]. eapply ss_1; [exact S|intros _; exact B|exact M].
Qed.

(** REFUTED: two threads call C_Initialize; both find the count 0 and both set up. *)
Definition both : list (nat * op) := [(0, Init); (1, Init); (0, Init); (0, Init); (1, Init)].
Lemma both_runs : moves both (init 2) = Some (mkS (mkSh 1%Z true true) [Idle; Counting]).
Proof. vm_compute. reflexivity. Qed.
Theorem C83_refuted : ~ C83_claim.
Proof. intros C. specialize (C 2 _ (moves_steps _ _ _ _ (ss_0 _ _) both_runs)). discriminate C. Qed.
Print Assumptions C83_refuted.
(** Also when the library has been set up by one thread before the others start: a
    call that found the library initialised uses it after C_Finalize has freed it. *)
Definition one_init (s : state) (o : op) : Prop :=
  balanced s o /\ (o = Init -> forall x, In x (pcs s) -> x = Idle).
Theorem C83_final_refuted : ~ forall n s, steps one_init (init n) s -> bad (sh s) = false.
Proof.
  intros C. specialize (C 2 (mkS (mkSh 0%Z false true) [Idle; Idle])).
  assert (S : steps one_init (init 2) (mkS (mkSh 0%Z false true) [Idle; Idle])).
  { assert (P : forall s i o s', steps one_init (init 2) s ->
       (o = Final -> (0 < cnt (sh s))%Z) ->
       (nth_error (pcs s) i = Some Idle -> o = Init -> forall x, In x (pcs s) -> x = Idle) -> move s i o = Some s' ->
       steps one_init (init 2) s').
    { intros s i o s' S B I M. eapply ss_1; [exact S| |exact M]. intros N. split; [exact B|apply I; exact N]. }
    eapply (P (mkS (mkSh 0%Z false false) [Idle; Asking]) 1 Call).
    eapply (P (mkS (mkSh 0%Z true false) [TearingDown; Asking]) 0 Call).
    eapply (P (mkS (mkSh 1%Z true false) [Idle; Asking]) 0 Final).
    eapply (P (mkS (mkSh 1%Z true false) [Idle; Idle]) 1 Call).
    eapply (P (mkS (mkSh 0%Z true false) [Counting; Idle]) 0 Call).
    eapply (P (mkS (mkSh 0%Z false false) [SettingUp; Idle]) 0 Call).
    eapply (P (mkS (mkSh 0%Z false false) [Idle; Idle]) 0 Init).
    apply ss_0.
    all: try reflexivity; try discriminate; cbn; try lia.
    intros _ _ x [<-|[<-|[]]]; reflexivity. }
  specialize (C S). discriminate C.
Qed.
Print Assumptions C83_final_refuted.

(** What holds.  The library is set up while no other thread is setting it up or
    tearing it down, and the last C_Finalize is called while no other call is in
    progress; other calls, and C_Initialize and C_Finalize in between, may overlap. *)
Definition quiet (s : state) : Prop := forall x, In x (pcs s) -> x = Idle.
Definition carefully (s : state) (o : op) : Prop :=
  match o with
  | Init => (cnt (sh s) = 0)%Z -> quiet s
  | Final => (0 < cnt (sh s))%Z /\ ((cnt (sh s) = 1)%Z -> quiet s)
  | Call => True
  end.

Lemma setpc_same l i x y : nth_error l i = Some y -> nth_error (setpc l i x) i = Some x.
Proof. revert i. induction l as [|z l IH]; intros [|i] E; try discriminate E; cbn in *; auto. Qed.
Lemma setpc_other l i j x : i <> j -> nth_error (setpc l i x) j = nth_error l j.
Proof. revert i j. induction l as [|z l IH]; intros [|i] [|j] D; cbn; auto; try contradiction. Qed.
Lemma setpc_at l i x j z : nth_error (setpc l i x) j = Some z -> (j = i /\ z = x) \/ (j <> i /\ nth_error l j = Some z).
Proof.
  intros E. destruct (Nat.eq_dec i j) as [<-|D].
  - left. split; [reflexivity|]. destruct (nth_error l i) as [y|] eqn:N.
    + rewrite (setpc_same _ _ _ _ N) in E. congruence.
    + exfalso. revert i E N. induction l as [|w l IH]; intros [|i] E N; cbn in *; try discriminate; eauto.
  - right. rewrite setpc_other in E by exact D. auto.
Qed.

(** All threads but [i] are idle, and [i] is at [x]. *)
Definition alone (s : state) (i : nat) (x : pc) : Prop :=
  nth_error (pcs s) i = Some x /\ forall j y, j <> i -> nth_error (pcs s) j = Some y -> y = Idle.
Definition good (s : state) : Prop :=
  bad (sh s) = false /\
  ((cnt (sh s) = 0%Z /\
     ((alive (sh s) = false /\ quiet s) \/
      (alive (sh s) = false /\ exists i, alone s i SettingUp) \/
      (alive (sh s) = true /\ exists i, alone s i Counting) \/
      (alive (sh s) = true /\ exists i, alone s i TearingDown))) \/
   ((0 < cnt (sh s))%Z /\ alive (sh s) = true /\
     forall x, In x (pcs s) -> x <> SettingUp /\ x <> TearingDown)).

Lemma quiet_alone s i x h : quiet s -> nth_error (pcs s) i = Some Idle -> alone (at_ s i x h) i x.
Proof.
  intros Q N. split; cbn; [exact (setpc_same _ _ _ _ N)|].
  intros j y D E. apply setpc_at in E as [[-> ->]|[_ E]]; [contradiction|]. apply Q. eapply nth_error_In; eauto.
Qed.
Lemma alone_move s i x y h : alone s i x -> alone (at_ s i y h) i y.
Proof.
  intros [N O]. split; cbn; [exact (setpc_same _ _ _ _ N)|].
  intros j z D E. apply setpc_at in E as [[-> ->]|[_ E]]; [contradiction|eauto].
Qed.
Lemma alone_quiet s i h x : alone s i x -> quiet (at_ s i Idle h).
Proof.
  intros [N O] y I. apply In_nth_error in I as (j & E). cbn in E.
  apply setpc_at in E as [[-> ->]|[D E]]; [reflexivity|eauto].
Qed.
Lemma alone_idle s i j x h : alone s i x -> nth_error (pcs s) j = Some Idle -> x <> Idle -> alone (at_ s j Idle h) i x.
Proof.
  intros [N O] J X. assert (D : i <> j) by (intros ->; congruence).
  split; cbn; [rewrite setpc_other by auto; exact N|].
  intros k y Dk E. apply setpc_at in E as [[-> ->]|[_ E]]; [reflexivity|eauto].
Qed.
Lemma quiet_idle s j h : quiet s -> quiet (at_ s j Idle h).
Proof. intros Q y I. apply In_nth_error in I as (k & E). cbn in E. apply setpc_at in E as [[_ ->]|[_ E]]; [reflexivity|]. apply Q. eapply nth_error_In; eauto. Qed.
Lemma busy_move s j x h : x <> SettingUp -> x <> TearingDown ->
  (forall y, In y (pcs s) -> y <> SettingUp /\ y <> TearingDown) ->
  forall y, In y (pcs (at_ s j x h)) -> y <> SettingUp /\ y <> TearingDown.
Proof. intros X1 X2 A y I. apply In_nth_error in I as (k & E). cbn in E. apply setpc_at in E as [[_ ->]|[_ E]]; [auto|]. apply A. eapply nth_error_In; eauto. Qed.

Lemma idle_move s i o s' : good s -> nth_error (pcs s) i = Some Idle -> carefully s o ->
  move s i o = Some s' -> good s'.
Proof.
  intros [B G] N M E. unfold move in E. rewrite N in E. injection E as <-.
  destruct o; cbn [carefully] in M.
  - (* C_Initialize *)
    destruct (cnt (sh s) =? 0)%Z eqn:Z0; [apply Z.eqb_eq in Z0|apply Z.eqb_neq in Z0].
    + destruct G as [(_ & G)|(P & _)]; [|lia]. specialize (M Z0).
      split; [exact B|]. left. split; [exact Z0|]. right. left.
      assert (A : alive (sh s) = false).
      { destruct G as [(A & _)|[(A & _)|[(_ & j & J & _)|(_ & j & J & _)]]]; auto;
        apply nth_error_In in J; apply M in J; discriminate J. }
      split; [exact A|]. exists i. apply quiet_alone; auto.
    + destruct G as [(Z1 & _)|(P & A & F)]; [contradiction|].
      split; [exact B|]. right. split; [exact P|]. split; [exact A|].
      apply busy_move; [discriminate|discriminate|exact F].
  - (* C_Finalize *)
    destruct M as [P Q]. destruct G as [(Z1 & _)|(_ & A & F)]; [lia|].
    destruct (cnt (sh s) - 1 =? 0)%Z eqn:Z0; [apply Z.eqb_eq in Z0|apply Z.eqb_neq in Z0].
    + assert (Z1 : cnt (sh s) = 1%Z) by lia. specialize (Q Z1).
      split; [cbn; rewrite B, A; reflexivity|]. left. split; [cbn; lia|]. right. right. right.
      split; [exact A|]. exists i. apply quiet_alone; auto.
    + split; [cbn; rewrite B, A; reflexivity|]. right. split; [cbn; lia|]. split; [exact A|].
      apply busy_move; [discriminate|discriminate|exact F].
  - (* any other call *)
    destruct (0 <? cnt (sh s))%Z eqn:Z0; [apply Z.ltb_lt in Z0|apply Z.ltb_ge in Z0].
    + destruct G as [(Z1 & _)|(_ & A & F)]; [lia|].
      split; [exact B|]. right. split; [exact Z0|]. split; [exact A|].
      apply busy_move; [discriminate|discriminate|exact F].
    + destruct G as [(Z1 & G)|(P & _)]; [|lia].
      split; [exact B|]. left. split; [exact Z1|].
      destruct G as [(A & Q)|[(A & j & J)|[(A & j & J)|(A & j & J)]]].
      * left. split; [exact A|]. apply quiet_idle. exact Q.
      * right. left. split; [exact A|]. exists j. apply alone_idle; [exact J|exact N|discriminate].
      * right. right. left. split; [exact A|]. exists j. apply alone_idle; [exact J|exact N|discriminate].
      * right. right. right. split; [exact A|]. exists j. apply alone_idle; [exact J|exact N|discriminate].
Qed.
(** With the count 0 the only thread not idle is the one [good] names. *)
Lemma zero_thread s i x : good s -> nth_error (pcs s) i = Some x -> x <> Idle -> cnt (sh s) = 0%Z ->
  (alive (sh s) = false /\ x = SettingUp /\ alone s i x) \/
  (alive (sh s) = true /\ (x = Counting \/ x = TearingDown) /\ alone s i x).
Proof.
  intros [_ G] N X Z0. destruct G as [(_ & G)|(P & _)]; [|lia].
  assert (K : forall j y, alone s j y -> x = y /\ alone s i x).
  { intros j y J. destruct (Nat.eq_dec i j) as [->|D].
    - assert (y = x) by (destruct J as [J _]; congruence). subst y. auto.
    - destruct J as [_ O]. elim X. eauto. }
  destruct G as [(_ & Q)|[(A & j & J)|[(A & j & J)|(A & j & J)]]].
  - elim X. apply Q. eapply nth_error_In; eauto.
  - left. destruct (K _ _ J) as [-> W]. auto.
  - right. destruct (K _ _ J) as [-> W]. auto.
  - right. destruct (K _ _ J) as [-> W]. auto.
Qed.
Lemma busy_step s i x o s' : good s -> nth_error (pcs s) i = Some x -> x <> Idle ->
  move s i o = Some s' -> good s'.
Proof.
  intros G N X E. unfold move in E. rewrite N in E.
  destruct (Z.eq_dec (cnt (sh s)) 0) as [Z0|Z0].
  - destruct (zero_thread _ _ _ G N X Z0) as [(A & -> & W)|(A & [->| ->] & W)];
      injection E as <-; destruct G as [B G].
    + split; [cbn; rewrite B, A; reflexivity|]. left. split; [exact Z0|]. right. right. left.
      split; [reflexivity|]. exists i. eapply alone_move; exact W.
    + split; [cbn; rewrite B, A; reflexivity|]. right. split; [cbn; lia|]. split; [exact A|].
      intros y I. rewrite (alone_quiet _ _ _ _ W y I). split; discriminate.
    + split; [cbn; rewrite B, A; reflexivity|]. left. split; [exact Z0|]. left.
      split; [reflexivity|]. eapply alone_quiet; exact W.
  - destruct G as [B [(Z1 & _)|(P & A & F)]]; [contradiction|].
    assert (R : forall y h, y <> SettingUp -> y <> TearingDown ->
       (0 < cnt h)%Z -> alive h = true -> bad h = false -> good (at_ s i y h)).
    { intros y h Y1 Y2 P1 A1 B1. split; [exact B1|]. right. split; [exact P1|]. split; [exact A1|].
      apply busy_move; auto. }
    destruct (F x (nth_error_In _ _ N)) as [F1 F2].
    destruct x; try contradiction; injection E as <-; apply R; cbn; try discriminate; try lia; auto;
      try (rewrite B, A; reflexivity); destruct (0 <? cnt (sh s))%Z; discriminate.
Qed.
Lemma steps_good n s : steps carefully (init n) s -> good s.
Proof.
  intros S. remember (init n) as a eqn:Ea. induction S as [a|a b c i o S IH M E]; subst.
  - split; [reflexivity|]. left. split; [reflexivity|]. left. split; [reflexivity|].
    intros x I. cbn in I. apply repeat_spec in I. exact I.
  - specialize (IH eq_refl). destruct (nth_error (pcs b) i) as [x|] eqn:N.
    + destruct x; [eapply idle_move; eauto| | | | |]; (eapply busy_step; [exact IH|exact N|discriminate|exact E]).
    + unfold move in E. rewrite N in E. discriminate E.
Qed.
(** Missing from C83: overlapping set-ups, and calls overlapping the tear-down. *)
Theorem C83_partial n s : steps carefully (init n) s -> bad (sh s) = false.
Proof. intros S. apply steps_good in S as [B _]. exact B. Qed.
(** The count is never negative, the library exists whenever a call is inside it,
    and when no call is in progress it exists exactly if the count is positive. *)
Theorem C83_count_partial n s : steps carefully (init n) s ->
  (0 <= cnt (sh s))%Z /\ (In Inside (pcs s) -> alive (sh s) = true) /\
  (quiet s -> (alive (sh s) = true <-> (0 < cnt (sh s))%Z)).
Proof.
  intros S. apply steps_good in S. split; [destruct S as [_ [(-> & _)|(P & _)]]; lia|]. split.
  - intros I. apply In_nth_error in I as (i & N).
    destruct (Z.eq_dec (cnt (sh s)) 0) as [Z0|Z0].
    + destruct (zero_thread _ _ _ S N ltac:(discriminate) Z0) as [(_ & X & _)|(A & _)]; [discriminate X|exact A].
    + destruct S as [_ [(Z1 & _)|(_ & A & _)]]; [contradiction|exact A].
  - intros Q. destruct S as [_ [(Z0 & G)|(P & A & _)]]; [|tauto].
    destruct G as [(A & _)|[(A & j & J & _)|[(A & j & J & _)|(A & j & J & _)]]];
      try (apply nth_error_In in J; apply Q in J; discriminate J).
    rewrite A, Z0. split; [discriminate|lia].
Qed.
Print Assumptions C83_partial.
Print Assumptions C83_count_partial.

(** Three threads: the first sets up, the others initialise again, call and finalise while calls go on, the last one tears down. *)
Definition idleb (s : state) : bool := forallb (fun x => match x with Idle => true | _ => false end) (pcs s).
Definition mayb (s : state) (o : op) : bool :=
  match o with
  | Init => orb (negb (cnt (sh s) =? 0)%Z) (idleb s)
  | Final => andb (0 <? cnt (sh s))%Z (orb (negb (cnt (sh s) =? 1)%Z) (idleb s))
  | Call => true
  end.
Lemma idleb_quiet s : idleb s = true -> quiet s.
Proof. intros H x I. unfold idleb in H. rewrite forallb_forall in H. specialize (H x I). destruct x; [reflexivity|discriminate H..]. Qed.
Lemma mayb_may s o : mayb s o = true -> carefully s o.
Proof.
  destruct o; cbn; intros H; [| |exact I].
  - apply orb_prop in H as [H|H]; [|intros _; apply idleb_quiet; exact H].
    intros Z0. rewrite Z0 in H. discriminate H.
  - apply andb_prop in H as [P H]. apply Z.ltb_lt in P. split; [exact P|].
    apply orb_prop in H as [H|H]; [|intros _; apply idleb_quiet; exact H].
    intros Z1. rewrite Z1 in H. discriminate H.
Qed.
Fixpoint gmoves (l : list (nat * op)) (s : state) : option state :=
  match l with
  | [] => Some s
  | (i, o) :: r =>
      if match nth_error (pcs s) i with Some Idle => mayb s o | _ => true end
      then match move s i o with Some s' => gmoves r s' | None => None end else None
  end.
Lemma gmoves_steps l : forall a s s', steps carefully a s -> gmoves l s = Some s' -> steps carefully a s'.
Proof.
  induction l as [|[i o] l IH]; intros a s s' S E; cbn [gmoves] in E; [injection E as <-; exact S|].
  destruct (match nth_error (pcs s) i with Some Idle => mayb s o | _ => true end) eqn:G; [|discriminate E].
  destruct (move s i o) as [s1|] eqn:M; [|discriminate E]. eapply IH; [|exact E].
  eapply ss_1; [exact S| |exact M]. intros N. rewrite N in G. apply mayb_may. exact G.
Qed.
Definition share : list (nat * op) :=
  [(0, Init); (1, Call); (0, Init); (1, Call); (0, Init); (1, Init); (2, Call); (1, Init); (2, Call); (1, Final); (2, Call);
   (0, Final); (0, Final); (2, Init); (2, Init); (2, Init); (1, Call); (1, Call); (0, Init)].
Lemma share_runs : gmoves share (init 3) = Some (mkS (mkSh 1%Z true false) [Counting; Inside; Idle]).
Proof. vm_compute. reflexivity. Qed.
Example C83_case : exists s, steps carefully (init 3) s /\ pcs s = [Counting; Inside; Idle] /\ alive (sh s) = true.
Proof. eexists. split; [exact (gmoves_steps _ _ _ _ (ss_0 _ _) share_runs)|]. split; reflexivity. Qed.
