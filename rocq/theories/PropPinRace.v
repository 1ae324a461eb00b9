(** Changing the PIN from several threads: C78 (a PIN that works) and C79 (the storage key belongs to it). *)
From Coq Require Import List Arith Lia Bool.
Import ListNotations.
From Verif Require Import PinRace.

Section Props.
  Variable hash : Type.
  Variable H : nat -> nat -> hash.
  Notation state := (state hash).
  (** The PIN [p] would be accepted. *)
  Definition works (s : state) (p : nat) : Prop := H p (s_seed (sh s)) = s_pin (sh s).
  Definition idle (s : state) : Prop := forall x, In x (pcs s) -> x = Idle.
  Definition freely (s : state) (o : op) : Prop := True.
  (** ** C78: once all PIN changes have returned, some PIN works *)
  Definition C78_claim : Prop := forall n p0 s, steps hash H freely (init hash H n p0) s -> idle s -> exists p, works s p.
  (** At any moment during a single change, the old or the new PIN works. *)
  Definition C78_window_claim : Prop := forall n p0 q s, steps hash H (fun s o => idle s /\ o = Change q) (init hash H n p0) s -> works s p0 \/ works s q.
  (** ** C79: the storage key is the one derived from the PIN that works *)
  Definition C79_claim : Prop := forall n p0 s, steps hash H freely (init hash H n p0) s -> idle s -> forall p, works s p -> s_key (sh s) = H p (s_kseed (sh s)).
  (** The same with PIN changes that do not overlap each other. *)
  Definition one_change (s : state) (o : op) : Prop := match o with Change _ => forallb (fun x => negb (changing x)) (pcs s) = true | Login _ => True end.
  Definition C79_login_claim : Prop := forall n p0 s, steps hash H one_change (init hash H n p0) s -> idle s -> forall p, works s p -> s_key (sh s) = H p (s_kseed (sh s)).
  (** PIN changes overlap nothing, logins only logins. *)
  Definition apart (s : state) (o : op) : Prop :=
    match o with Change _ => forallb (fun x => negb (orb (changing x) (logging x))) (pcs s) = true | Login _ => forallb (fun x => negb (changing x)) (pcs s) = true end.

  Lemma setpc_same l i x y : nth_error l i = Some y -> nth_error (setpc l i x) i = Some x.
  Proof. revert i. induction l as [|z l IH]; intros [|i]; cbn; try discriminate; [reflexivity|apply IH]. Qed.
  Lemma setpc_other l i j x : i <> j -> nth_error (setpc l i x) j = nth_error l j.
  Proof. revert i j. induction l as [|z l IH]; intros [|i] [|j] N; cbn; try reflexivity; [lia|apply IH; lia]. Qed.
  Lemma setpc_in l i x y : In y (setpc l i x) -> y = x \/ exists j, j <> i /\ nth_error l j = Some y.
  Proof.
    intros I. apply In_nth_error in I as [j J]. destruct (Nat.eq_dec i j) as [<-|D]; [|right; exists j; rewrite setpc_other in J by exact D; auto]. left.
    destruct (nth_error l i) as [z|] eqn:N; [rewrite (setpc_same _ _ _ _ N) in J; congruence|]. exfalso. revert i N J. induction l as [|z l IH]; intros [|i]; cbn; try discriminate. apply IH.
  Qed.

  (** At most one thread is changing the PIN, and the shared data are as far as it has got. *)
  Definition told (s : state) (x : pc) : Prop :=
    match x with
    | S2 _ sd => sd = s_seed (sh s)
    | S3 p | S5 p => works s p
    | S4 p sd => works s p
    | _ => True
    end.
  Definition solo (s : state) : Prop := forall i j x y, nth_error (pcs s) i = Some x -> nth_error (pcs s) j = Some y -> changing x = true -> changing y = true -> i = j.
  Definition inv (s : state) : Prop :=
    solo s /\ (forall x, In x (pcs s) -> told s x) /\ ((forall x, In x (pcs s) -> changing x = false) -> works s (last s)).
  Lemma none_changing (s : state) : forallb (fun x => negb (changing x)) (pcs s) = true -> forall x, In x (pcs s) -> changing x = false.
  Proof. intros F x I. rewrite forallb_forall in F. specialize (F x I). destruct (changing x); [discriminate F|reflexivity]. Qed.
  Lemma solo_set (s : state) i x y (h : shared hash) f l : solo s -> nth_error (pcs s) i = Some y -> (changing x = true -> changing y = true \/ forall z, In z (pcs s) -> changing z = false) ->
    solo (mkS h (setpc (pcs s) i x) f l).
  Proof.
    intros S0 N C a b u v A B Cu Cv. cbn [pcs] in *. destruct (Nat.eq_dec i a) as [<-|Da], (Nat.eq_dec i b) as [<-|Db]; [reflexivity| | |].
    - rewrite (setpc_same _ _ _ _ N) in A. injection A as <-. rewrite setpc_other in B by exact Db. destruct (C Cu) as [Cy|Cz]; [exact (S0 i b y v N B Cy Cv)|]. rewrite (Cz v (nth_error_In _ _ B)) in Cv. discriminate Cv.
    - rewrite (setpc_same _ _ _ _ N) in B. injection B as <-. rewrite setpc_other in A by exact Da. destruct (C Cv) as [Cy|Cz]; [exact (S0 a i u y A N Cu Cy)|]. rewrite (Cz u (nth_error_In _ _ A)) in Cu. discriminate Cu.
    - rewrite setpc_other in A by exact Da. rewrite setpc_other in B by exact Db. eauto.
  Qed.
  (** The other threads are not changing the PIN if thread [i] is. *)
  Lemma others (s : state) i x : solo s -> nth_error (pcs s) i = Some x -> changing x = true -> forall j y, j <> i -> nth_error (pcs s) j = Some y -> changing y = false.
  Proof. intros S0 N C j y D J. destruct (changing y) eqn:Q; [|reflexivity]. destruct D. exact (S0 j i y x J N Q C). Qed.
  Lemma told_idle (s : state) x : changing x = false -> told s x.
  Proof. destruct x; cbn; try discriminate; auto. Qed.
  (** A step of the thread that is changing the PIN, to [x] with shared data [h]. *)
  Lemma change_inv (s : state) i x y (h : shared hash) f l : inv s -> nth_error (pcs s) i = Some y -> changing y = true -> told (mkS h (setpc (pcs s) i x) f l) x -> (changing x = false -> works (mkS h (setpc (pcs s) i x) f l) l) -> inv (mkS h (setpc (pcs s) i x) f l).
  Proof.
    intros (S0 & T & W) N C Tx Wx. split; [eapply solo_set; eauto|]. split.
    - intros z I. cbn [pcs] in I. apply setpc_in in I as [->|(j & D & J)]; [exact Tx|]. apply told_idle. exact (others s i y S0 N C j z D J).
    - intros F. apply Wx. apply F. cbn [pcs]. eapply nth_error_In. eapply setpc_same. exact N.
  Qed.
  (** A step of a thread that is logging in. *)
  Lemma login_inv (s : state) i x y h : inv s -> nth_error (pcs s) i = Some y -> changing y = false -> changing x = false -> s_seed h = s_seed (sh s) -> s_pin h = s_pin (sh s) -> inv (at_ s i x h).
  Proof.
    intros (S0 & T & W) N C Cx E1 E2. assert (Wk : forall p, works s p -> works (at_ s i x h) p) by (unfold works; intros p; cbn; congruence). split; [apply solo_set with y; auto; congruence|]. split.
    - intros z I. cbn [at_ pcs] in I. apply setpc_in in I as [->|(j & D & J)]; [apply told_idle; exact Cx|]. specialize (T z (nth_error_In _ _ J)). destruct z; cbn [told] in *; auto. cbn. congruence.
    - intros F. cbn [last at_]. apply Wk, W. intros z I. apply In_nth_error in I as [j J]. destruct (Nat.eq_dec i j) as [<-|D]; [congruence|]. apply F. cbn [at_ pcs]. apply (nth_error_In _ j). rewrite setpc_other by exact D. exact J.
  Qed.
  Lemma step_inv s s' : step hash H one_change s s' -> inv s -> inv s'.
  Proof.
    intros St I. destruct St.
    - (* a new change starts *) destruct I as (S0 & T & W). cbn [one_change] in H1. pose proof (none_changing s H1) as Nc. split; [eapply solo_set; eauto|]. split.
      + intros z J. cbn [pcs] in J. apply setpc_in in J as [->|(j & D & J)]; [exact Logic.I|]. apply told_idle, Nc. eapply nth_error_In; eauto.
      + intros F. specialize (F (S1 p)). cbn [pcs] in F. discriminate F. eapply nth_error_In. eapply setpc_same. exact H0.
    - eapply change_inv; eauto; cbn; [reflexivity|discriminate].
    - eapply change_inv; eauto; cbn; [|discriminate]. destruct I as (_ & T & _). specialize (T _ (nth_error_In _ _ H0)). cbn in T. subst sd. reflexivity.
    - eapply change_inv; eauto; cbn; [|discriminate]. destruct I as (_ & T & _). exact (T _ (nth_error_In _ _ H0)).
    - eapply change_inv; eauto; cbn; [|discriminate]. destruct I as (_ & T & _). exact (T _ (nth_error_In _ _ H0)).
    - eapply change_inv; eauto; cbn; [exact Logic.I|]. intros _. destruct I as (_ & T & _). exact (T _ (nth_error_In _ _ H0)).
    - eapply login_inv; eauto.
    - eapply login_inv; eauto.
    - eapply login_inv; eauto.
    - eapply login_inv; eauto.
    - eapply login_inv; eauto.
    - eapply login_inv; eauto.
    - eapply login_inv; eauto.
  Qed.
  Lemma init_pcs n p0 x : In x (pcs (init hash H n p0)) -> x = Idle.
  Proof. cbn. intros I. apply repeat_spec in I. exact I. Qed.
  Lemma init_inv n p0 : inv (init hash H n p0).
  Proof. split; [|split]. - intros i j x y A _ C. apply nth_error_In, init_pcs in A. subst x. discriminate C. - intros x I. apply init_pcs in I. subst x. exact Logic.I. - reflexivity. Qed.
  Lemma steps_inv s s' : steps hash H one_change s s' -> inv s -> inv s'.
  Proof. induction 1; intros I; [exact I|]. eapply step_inv; eauto. Qed.
Theorem C78_partial n p0 s : steps hash H one_change (init hash H n p0) s -> (forall x, In x (pcs s) -> changing x = false) -> works s (last s).
  Proof. intros St F. pose proof (steps_inv _ _ St (init_inv n p0)) as (_ & _ & W). auto. Qed.

  (** The storage key, when logins do not overlap a change. *)
  Hypothesis inj : forall p p' sd sd', H p sd = H p' sd' -> p = p'.
  Definition ktold (s : state) (x : pc) : Prop :=
    match x with
    | S4 _ sd => sd = s_kseed (sh s)
    | S5 p => s_key (sh s) = H p (s_kseed (sh s))
    | L2 p sd => sd = s_seed (sh s)
    | L3 p => works s p
    | L4 p sd => works s p /\ sd = s_kseed (sh s)
    | _ => True
    end.
  Definition split_ (s : state) : Prop := forall x y, In x (pcs s) -> In y (pcs s) -> changing x = true -> logging y = false.
  Definition kinv (s : state) : Prop :=
    inv s /\ split_ s /\ (forall x, In x (pcs s) -> ktold s x) /\ ((forall x, In x (pcs s) -> changing x = false) -> s_key (sh s) = H (last s) (s_kseed (sh s))).
  Lemma apart_one s o : apart s o -> one_change s o.
  Proof. destruct o; cbn; [|auto]. intros F. rewrite forallb_forall in *. intros x I. specialize (F x I). rewrite negb_orb in F. apply andb_prop in F. tauto. Qed.
  Lemma step_weaken s s' : step hash H apart s s' -> step hash H one_change s s'.
  Proof. destruct 1; first [apply c_start; [assumption|apply apart_one; assumption]|apply l_start; [assumption|exact Logic.I]|econstructor; eassumption]. Qed.
  Lemma in_set l i x y z : nth_error l i = Some y -> In z (setpc l i x) -> z = x \/ In z l.
  Proof. intros N I. apply setpc_in in I as [->|(j & _ & J)]; [auto|right; eapply nth_error_In; eauto]. Qed.
  Lemma change_kinv s i x y h f l : kinv s -> inv (mkS h (setpc (pcs s) i x) f l) -> nth_error (pcs s) i = Some y -> changing y = true -> logging x = false -> ktold (mkS h (setpc (pcs s) i x) f l) x ->
    (changing x = false -> s_key h = H l (s_kseed h)) -> kinv (mkS h (setpc (pcs s) i x) f l).
  Proof.
    intros ((S0 & _) & Sp & T & W) I' N C Lx Tx Wx. pose proof (nth_error_In _ _ N) as Iy. split; [exact I'|]. split; [|split].
    - intros u v A B Cu. cbn [pcs] in *. apply in_set with (y := y) in B as [->|B]; [exact Lx|exact (Sp y v Iy B C)|exact N].
    - intros z I. cbn [pcs] in I. apply setpc_in in I as [->|(j & D & J)]; [exact Tx|]. pose proof (others s i y S0 N C j z D J) as Cz. pose proof (Sp y z Iy (nth_error_In _ _ J) C) as Lz. destruct z; cbn in *; try discriminate; auto.
    - intros F. cbn [sh last]. apply Wx. apply F. cbn [pcs]. eapply nth_error_In. eapply setpc_same. exact N.
  Qed.
  Lemma login_kinv s i x y h : kinv s -> inv (at_ s i x h) -> nth_error (pcs s) i = Some y -> changing y = false -> changing x = false ->
    (logging x = true -> forall z, In z (pcs s) -> changing z = false) -> s_seed h = s_seed (sh s) -> s_kseed h = s_kseed (sh s) -> s_pin h = s_pin (sh s) ->
    (s_key h = s_key (sh s) \/ (forall z, In z (pcs s) -> changing z = false) /\ s_key h = H (last s) (s_kseed h)) -> ktold (at_ s i x h) x -> kinv (at_ s i x h).
  Proof.
    intros (_ & Sp & T & W) I' N Cy Cx Lx E1 E2 E3 E4 Tx. split; [exact I'|]. split; [|split].
    - intros u v A B Cu. cbn [pcs at_] in *. apply in_set with (y := y) in A as [->|A]; [congruence| |exact N]. apply in_set with (y := y) in B as [->|B]; [|exact (Sp u v A B Cu)|exact N].
      destruct (logging x) eqn:Q; [|reflexivity]. rewrite (Lx eq_refl u A) in Cu. discriminate Cu.
    - intros z I. cbn [pcs at_] in I. apply setpc_in in I as [->|(j & D & J)]; [exact Tx|]. pose proof (nth_error_In _ _ J) as Iz. specialize (T z Iz). destruct z; cbn [ktold sh at_ works] in *; auto; unfold works in *; cbn [sh at_]; try congruence.
      1: destruct E4 as [E4|[Nc E4]]; [congruence|]; specialize (Nc _ Iz); discriminate Nc.
      all: destruct T; split; congruence.
    - intros F. cbn [sh at_ last]. destruct E4 as [E4|[_ E4]]; [|exact E4]. rewrite E4, E2. apply W. intros z I. apply In_nth_error in I as [j J]. destruct (Nat.eq_dec i j) as [<-|D]; [congruence|].
      apply F. cbn [at_ pcs]. apply (nth_error_In _ j). rewrite setpc_other by exact D. exact J.
  Qed.
  Lemma step_kinv s s' : step hash H apart s s' -> kinv s -> kinv s'.
  Proof.
    intros St K. pose proof K as (I & Sp & T & W). pose proof (step_inv s s' (step_weaken s s' St) I) as I'. destruct St.
    - cbn [apart] in H1. assert (Nc : forall z, In z (pcs s) -> changing z = false /\ logging z = false). { intros z J. rewrite forallb_forall in H1. specialize (H1 z J). rewrite negb_orb in H1. apply andb_prop in H1 as [A B]. rewrite negb_true_iff in A, B. auto. }
      split; [exact I'|]. split; [|split].
      + intros u v A B Cu. cbn [pcs] in *. apply in_set with (y := Idle) in B as [->|B]; [reflexivity|apply Nc; exact B|exact H0].
      + intros z J. cbn [pcs] in J. apply setpc_in in J as [->|(j & D & J)]; [exact Logic.I|]. destruct (Nc z (nth_error_In _ _ J)). destruct z; cbn in *; try discriminate; auto.
      + intros F. specialize (F (S1 p)). discriminate F. cbn [pcs]. eapply nth_error_In. eapply setpc_same. exact H0.
    - eapply change_kinv; eauto; cbn; [exact Logic.I|discriminate].
    - eapply change_kinv; eauto; cbn; [exact Logic.I|discriminate].
    - eapply change_kinv; eauto; cbn; [reflexivity|discriminate].
    - eapply change_kinv; eauto; cbn; [|discriminate]. specialize (T _ (nth_error_In _ _ H0)). cbn in T. congruence.
    - eapply change_kinv; eauto; cbn; [exact Logic.I|]. intros _. exact (T _ (nth_error_In _ _ H0)).
    - cbn [apart] in H1. eapply login_kinv; eauto; cbn; [|exact Logic.I]. intros _. apply none_changing. exact H1.
    - eapply login_kinv; eauto; cbn; [|reflexivity]. intros _ z J. destruct (changing z) eqn:C; [|reflexivity]. specialize (Sp z _ J (nth_error_In _ _ H0) C). discriminate Sp.
    - eapply login_kinv; eauto; cbn.
      + intros _ z J. destruct (changing z) eqn:C; [|reflexivity]. specialize (Sp z _ J (nth_error_In _ _ H0) C). discriminate Sp.
      + specialize (T _ (nth_error_In _ _ H0)). cbn in T. subst sd. exact H1.
    - eapply login_kinv; eauto; cbn; [discriminate|exact Logic.I].
    - eapply login_kinv; eauto; cbn.
      + intros _ z J. destruct (changing z) eqn:C; [|reflexivity]. specialize (Sp z _ J (nth_error_In _ _ H0) C). discriminate Sp.
      + specialize (T _ (nth_error_In _ _ H0)). cbn in T. auto.
    - assert (Nc : forall z, In z (pcs s) -> changing z = false). { intros z J. destruct (changing z) eqn:C; [|reflexivity]. specialize (Sp z _ J (nth_error_In _ _ H0) C). discriminate Sp. }
      eapply login_kinv; eauto; cbn; [|exact Logic.I]. right. split; [exact Nc|]. destruct (T _ (nth_error_In _ _ H0)) as [Wk ->]. destruct I as (_ & _ & Wl). specialize (Wl Nc). unfold works in Wk, Wl. f_equal. rewrite <- Wl in Wk. eapply inj. exact Wk.
    - eapply login_kinv; eauto; cbn; [discriminate|exact Logic.I].
  Qed.
Theorem C79_partial n p0 s : steps hash H apart (init hash H n p0) s -> (forall x, In x (pcs s) -> changing x = false) ->
    forall p, works s p -> s_key (sh s) = H p (s_kseed (sh s)).
  Proof.
    intros St F p Wp. assert (K : kinv s).
    { assert (K0 : kinv (init hash H n p0)). { split; [apply init_inv|]. split; [|split]. - intros x y A _ C. apply init_pcs in A. subst x. discriminate C. - intros x J. apply init_pcs in J. subst x. exact Logic.I. - reflexivity. }
      clear F Wp. induction St; [exact K0|]. eapply step_kinv; eauto. }
    destruct K as ((_ & _ & W1) & _ & _ & W2). rewrite (W2 F). specialize (W1 F). unfold works in *. f_equal. rewrite <- W1 in Wp. symmetry. eapply inj. exact Wp.
  Qed.
End Props.
Print Assumptions C78_partial.
Print Assumptions C79_partial.

(** ** Refutations, with a hash that reveals PIN and seed *)
Definition th (p sd : nat) : nat * nat := (p, sd).
Definition theqb (a b : nat * nat) : bool := andb (fst a =? fst b) (snd a =? snd b).
Lemma move_step (may : state (nat * nat) -> op -> Prop) s i o s' : (nth_error (pcs s) i = Some Idle -> may s o) -> move (nat * nat) th theqb s i o = Some s' -> step (nat * nat) th may s s'.
Proof.
  intros M E. unfold move in E. destruct (nth_error (pcs s) i) as [x|] eqn:N; [|discriminate E]. destruct x; try (injection E as <-; econstructor; eauto; fail).
  - destruct o as [p|p]; injection E as <-; constructor; eauto.
  - destruct (theqb _ _) eqn:Q in E; injection E as <-; econstructor; eauto.
    + unfold theqb in Q. apply andb_prop in Q as [A B]. apply Nat.eqb_eq in A, B. destruct (s_pin (sh s)); cbn in *. unfold th. congruence.
    + intros C. unfold theqb in Q. rewrite <- C in Q. rewrite !Nat.eqb_refl in Q. discriminate Q.
Qed.
(** Runs in which calls start only as [g] allows. *)
Fixpoint gmoves (g : state (nat * nat) -> op -> bool) (l : list (nat * op)) (s : state (nat * nat)) : option (state (nat * nat)) :=
  match l with
  | [] => Some s
  | (i, o) :: r =>
      if match nth_error (pcs s) i with Some Idle => g s o | _ => true end
      then match move (nat * nat) th theqb s i o with Some s' => gmoves g r s' | None => None end else None
  end.
Lemma gmoves_steps (may : state (nat * nat) -> op -> Prop) g l s s' : (forall s o, g s o = true -> may s o) -> gmoves g l s = Some s' -> forall a, steps (nat * nat) th may a s -> steps (nat * nat) th may a s'.
Proof.
  intros G. revert s. induction l as [|[i o] l IH]; intros s E a St; cbn [gmoves] in E; [injection E as <-; exact St|].
  destruct (match nth_error (pcs s) i with Some Idle => g s o | _ => true end) eqn:Q; [|discriminate E].
  destruct (move _ _ _ s i o) as [s1|] eqn:Mv; [|discriminate E]. apply (IH s1 E). econstructor; [exact St|]. eapply move_step; [|exact Mv]. intros N. apply G. rewrite N in Q. exact Q.
Qed.
Definition any (s : state (nat * nat)) (o : op) : bool := true.
Definition oneb (s : state (nat * nat)) (o : op) : bool := match o with Change _ => forallb (fun x => negb (changing x)) (pcs s) | Login _ => true end.
Definition apartb (s : state (nat * nat)) (o : op) : bool :=
  match o with Change _ => forallb (fun x => negb (orb (changing x) (logging x))) (pcs s) | Login _ => forallb (fun x => negb (changing x)) (pcs s) end.
Lemma any_ok s o : any s o = true -> freely (nat * nat) s o. Proof. intros _. exact I. Qed.
Lemma oneb_ok s o : oneb s o = true -> one_change (nat * nat) s o. Proof. destruct o; cbn; auto. Qed.
Lemma apartb_ok s o : apartb s o = true -> apart (nat * nat) s o. Proof. destruct o; cbn; auto. Qed.
(** Two threads change the PIN, to 5 and to 6; both calls succeed and no PIN works any more. *)
Definition lockout : list (nat * op) := [(0, Change 5); (0, Change 5); (1, Change 6); (1, Change 6); (1, Change 6); (1, Change 6); (1, Change 6); (1, Change 6); (0, Change 5); (0, Change 5); (0, Change 5); (0, Change 5)].
Lemma lockout_runs : gmoves any lockout (init (nat * nat) th 2 3) = Some (mkS (mkSh 4 5 (5, 2) (5, 5)) [Idle; Idle] 6 5).
Proof. vm_compute. reflexivity. Qed.
Theorem C78_refuted : ~ C78_claim (nat * nat) th.
Proof.
  intros C. destruct (C 2 3 _ (gmoves_steps _ _ _ _ _ any_ok lockout_runs _ (ss_0 _ _ _ _))) as (p & W).
  - intros x [<-|[<-|[]]]; reflexivity.
  - vm_compute in W. discriminate W.
Qed.
(** While a single change from 3 to 5 is under way, neither 3 nor 5 is accepted. *)
Theorem C78_window_refuted : ~ C78_window_claim (nat * nat) th.
Proof.
  intros C. specialize (C 1 3 5 (mkS (mkSh 2 3 (3, 0) (3, 1)) [S1 5] 4 3)). destruct C as [W|W]; [|vm_compute in W; discriminate W..].
  econstructor; [constructor|]. apply (c_start _ _ _ (init (nat * nat) th 1 3) 0 5); [reflexivity|]. split; [|reflexivity]. intros x [<-|[]]. reflexivity.
Qed.
(** A login with the old PIN overlaps a change: PIN 5 works, and the storage key is made from PIN 3. *)
Definition oldkey : list (nat * op) := [(0, Login 3); (0, Login 3); (0, Login 3)] ++ repeat (1, Change 5) 6 ++ [(0, Login 3); (0, Login 3)].
Lemma oldkey_runs : gmoves oneb oldkey (init (nat * nat) th 2 3) = Some (mkS (mkSh 2 3 (5, 2) (3, 3)) [Idle; Idle] 4 5).
Proof. vm_compute. reflexivity. Qed.
Lemma one_run : steps (nat * nat) th (one_change (nat * nat)) (init (nat * nat) th 2 3) (mkS (mkSh 2 3 (5, 2) (3, 3)) [Idle; Idle] 4 5).
Proof. exact (gmoves_steps _ _ _ _ _ oneb_ok oldkey_runs _ (ss_0 _ _ _ _)). Qed.
Theorem C79_login_refuted : ~ C79_login_claim (nat * nat) th.
Proof. intros C. specialize (C 2 3 _ one_run). discriminate (C ltac:(intros x [<-|[<-|[]]]; reflexivity) 5 eq_refl). Qed.
Lemma weaken_free s s' : steps (nat * nat) th (one_change (nat * nat)) s s' -> steps (nat * nat) th (freely (nat * nat)) s s'.
Proof. induction 1 as [|a b c S1 IH St]; [constructor|]. econstructor; [exact IH|]. destruct St; econstructor; eauto; exact I. Qed.
Theorem C79_refuted : ~ C79_claim (nat * nat) th.
Proof. intros C. specialize (C 2 3 _ (weaken_free _ _ one_run)). discriminate (C ltac:(intros x [<-|[<-|[]]]; reflexivity) 5 eq_refl). Qed.
Print Assumptions C78_refuted.
Print Assumptions C78_window_refuted.
Print Assumptions C79_refuted.
Print Assumptions C79_login_refuted.
(** Two changes one after the other with logins overlapping each other in between. *)
Definition inorder : list (nat * op) := repeat (0, Change 5) 6 ++ [(0, Login 5); (1, Login 5); (0, Login 5); (1, Login 5); (0, Login 5); (1, Login 5)] ++ repeat (0, Login 5) 2 ++ repeat (1, Login 5) 2 ++ repeat (1, Change 6) 6.
Lemma inorder_runs : gmoves apartb inorder (init (nat * nat) th 2 3) = Some (mkS (mkSh 4 5 (6, 4) (6, 5)) [Idle; Idle] 6 6).
Proof. vm_compute. reflexivity. Qed.
Example C79_case : exists s, steps (nat * nat) th (apart (nat * nat)) (init (nat * nat) th 2 3) s /\ idle (nat * nat) s /\ last s = 6 /\ works (nat * nat) th s 6 /\ s_key (sh s) = th 6 (s_kseed (sh s)).
Proof. eexists. split; [exact (gmoves_steps _ _ _ _ _ apartb_ok inorder_runs _ (ss_0 _ _ _ _))|]. repeat split. intros x [<-|[<-|[]]]; reflexivity. Qed.
(** A change during a login; the PIN that was set works afterwards. *)
Example C78_case : exists s, steps (nat * nat) th (one_change (nat * nat)) (init (nat * nat) th 2 3) s /\ idle (nat * nat) s /\ last s = 5 /\ works (nat * nat) th s 5.
Proof. eexists. split; [exact one_run|]. repeat split. intros x [<-|[<-|[]]]; reflexivity. Qed.
