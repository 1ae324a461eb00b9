(** Token objects used from several threads: C80 (no use after free) and C81 (the object count). *)
From Coq Require Import List Arith Lia Bool ZArith.
Import ListNotations.
From Verif Require Import ObjRace.

(** ** C80: no call touches an object that has been freed *)
Definition freely (s : state) (o : op) : Prop := True.
Definition C80_claim : Prop := forall n s, steps freely (init n) s -> bad (sh s) = false.
(** ** C81: the token's object count is the number of its objects when no call is in progress *)
Definition idle (s : state) : Prop := forall x, In x (pcs s) -> x = Idle.
Definition C81_claim : Prop := forall n s, steps freely (init n) s -> idle s -> cnt (sh s) = Z.of_nat (length (objs (sh s))).

(** REFUTED: a thread finds the object, another destroys it, the first uses it. *)
Fixpoint moves (l : list (nat * op)) (s : state) : option state := match l with [] => Some s | (i, o) :: r => match move s i o with Some s' => moves r s' | None => None end end.
Lemma moves_steps l : forall a s s', steps freely a s -> moves l s = Some s' -> steps freely a s'.
Proof. induction l as [|[i o] l IH]; intros a s s' S E; cbn [moves] in E; [injection E as <-; exact S|]. destruct (move s i o) as [s1|] eqn:M; [|discriminate E]. eapply IH; [|exact E]. eapply ss_1; [exact S| |exact M]. intros. exact I. Qed.
Definition late : list (nat * op) := [(0, Create); (0, Use 1); (1, Destroy 1); (1, Destroy 1); (1, Destroy 1); (0, Use 1)].
Lemma late_runs : moves late (init 2) = Some (mkS (mkSh [] 0%Z [0] 1 true) [Idle; Idle]).
Proof. vm_compute. reflexivity. Qed.
Theorem C80_refuted : ~ C80_claim.
Proof. intros C. specialize (C 2 _ (moves_steps _ _ _ _ (ss_0 _ _) late_runs)). discriminate C. Qed.
(** Without any reader: two threads destroy the same object and it is freed twice. *)
Definition twice : list (nat * op) := [(0, Create); (0, Destroy 1); (1, Destroy 1); (0, Destroy 1); (1, Destroy 1); (0, Destroy 1); (1, Destroy 1)].
Lemma twice_runs : moves twice (init 2) = Some (mkS (mkSh [] (-1)%Z [0; 0] 1 true) [Idle; Idle]).
Proof. vm_compute. reflexivity. Qed.
Theorem C80_double_free_refuted : ~ forall n s, steps freely (init n) s -> NoDup (freed (sh s)).
Proof. intros C. specialize (C 2 _ (moves_steps _ _ _ _ (ss_0 _ _) twice_runs)). cbn in C. inversion C as [|x l N _]. apply N. left. reflexivity. Qed.
(** The count is then wrong for good. *)
Theorem C81_refuted : ~ C81_claim.
Proof. intros C. specialize (C 2 _ (moves_steps _ _ _ _ (ss_0 _ _) twice_runs)). discriminate C. intros x [<-|[<-|[]]]; reflexivity. Qed.
Print Assumptions C80_refuted.
Print Assumptions C80_double_free_refuted.
Print Assumptions C81_refuted.

(** What holds: an object is destroyed only while no other call uses it, and no
    call uses it meanwhile. *)
Definition busy (h : nat) (x : pc) : bool := match x with Idle => false | Using k _ | Found k _ | Unlinked k _ => k =? h end.
Definition ending (h : nat) (x : pc) : bool := match x with Found k _ | Unlinked k _ => k =? h | _ => false end.
Definition carefully (s : state) (o : op) : Prop :=
  match o with
  | Create => True
  | Use h => forallb (fun x => negb (ending h x)) (pcs s) = true
  | Destroy h => forallb (fun x => negb (busy h x)) (pcs s) = true
  end.

Lemma setpc_same l i x y : nth_error l i = Some y -> nth_error (setpc l i x) i = Some x.
Proof. revert i. induction l as [|z l IH]; intros [|i]; cbn; try discriminate; [reflexivity|apply IH]. Qed.
Lemma setpc_other l i j x : i <> j -> nth_error (setpc l i x) j = nth_error l j.
Proof. revert i j. induction l as [|z l IH]; intros [|i] [|j] N; cbn; try reflexivity; [lia|apply IH; lia]. Qed.
Lemma setpc_at l i x y j z : nth_error l i = Some y -> nth_error (setpc l i x) j = Some z -> (j = i /\ z = x) \/ (j <> i /\ nth_error l j = Some z).
Proof. intros N E. destruct (Nat.eq_dec i j) as [<-|D]; [left|right]; [rewrite (setpc_same _ _ _ _ N) in E; split; congruence|rewrite setpc_other in E by exact D; auto]. Qed.

(** Handles fall along the list, objects in it are live and different. *)
Fixpoint falling (b : nat) (l : list (nat * nat)) : Prop := match l with [] => True | (h, _) :: r => h < b /\ falling h r end.
Definition sane (h : shared) : Prop :=
  falling (match objs h with (k, _) :: _ => S k | [] => 0 end) (objs h) /\ NoDup (map snd (objs h)) /\ (forall p, In p (map snd (objs h)) -> p < next h /\ ~ In p (freed h)) /\
  (forall p, In p (freed h) -> p < next h) /\ NoDup (freed h) /\ bad h = false.
Definition own (s : state) (x : pc) : Prop :=
  match x with
  | Idle => True
  | Using h p | Found h p => In (h, p) (objs (sh s))
  | Unlinked h p => ~ In p (map snd (objs (sh s))) /\ ~ In p (freed (sh s)) /\ p < next (sh s)
  end.
Definition ptr (x : pc) : option nat := match x with Idle => None | Using _ p | Found _ p | Unlinked _ p => Some p end.
Definition ends (x : pc) : bool := match x with Found _ _ | Unlinked _ _ => true | _ => false end.
Definition inv (s : state) : Prop :=
  sane (sh s) /\ (forall x, In x (pcs s) -> own s x) /\
  (forall i j x y, i <> j -> nth_error (pcs s) i = Some x -> nth_error (pcs s) j = Some y -> ends x = true -> ptr x <> ptr y) /\
  cnt (sh s) = Z.of_nat (length (objs (sh s))).
Lemma falling_le b c l : b <= c -> falling b l -> falling c l.
Proof. destruct l as [|[h p] l]; cbn; [auto|]. intros L [A B]. split; [lia|exact B]. Qed.
Lemma falling_in b l h p : falling b l -> In (h, p) l -> h < b.
Proof. revert b. induction l as [|[k q] l IH]; cbn; intros b; [tauto|]. intros [A B] [E|I]; [congruence|]. specialize (IH k B I). lia. Qed.
Lemma falling_fun b l h p q : falling b l -> In (h, p) l -> In (h, q) l -> p = q.
Proof.
  revert b. induction l as [|[k r] l IH]; cbn; intros b; [tauto|]. intros [A B] [E|I] [F|J]; [congruence| | |eauto].
  - injection E as -> ->. apply (falling_in _ _ _ _ B) in J. lia.
  - injection F as -> ->. apply (falling_in _ _ _ _ B) in I. lia.
Qed.
Lemma lookup_in s h p : lookup s h = Some p -> In (h, p) (objs s).
Proof. unfold lookup. destruct (find _ _) as [[k q]|] eqn:F; [|discriminate]. intros E. injection E as <-. apply find_some in F as [I Q]. cbn in Q. apply Nat.eqb_eq in Q. subst k. exact I. Qed.
Lemma inj_snd (l : list (nat * nat)) h k p : NoDup (map snd l) -> In (h, p) l -> In (k, p) l -> h = k.
Proof.
  induction l as [|[a b] l IH]; cbn; [tauto|]. intros N [E|I] [F|J]; inversion N as [|z zs Nz Nr]; subst; [congruence| | |eauto].
  - injection E as -> ->. destruct Nz. apply in_map_iff. exists (k, p). auto.
  - injection F as -> ->. destruct Nz. apply in_map_iff. exists (h, p). auto.
Qed.
Lemma unlink_in l p e : In e (unlink l p) -> In e l.
Proof. induction l as [|[h q] l IH]; cbn; [tauto|]. destruct (q =? p); [auto|]. cbn. intros [E|I]; auto. Qed.
Lemma unlink_keeps l p h q : In (h, q) l -> q <> p -> In (h, q) (unlink l p).
Proof. induction l as [|[k r] l IH]; cbn; [tauto|]. intros [E|I] D; destruct (Nat.eqb_spec r p); cbn; auto. injection E as -> ->. contradiction. Qed.
Lemma unlink_gone l p : NoDup (map snd l) -> ~ In p (map snd (unlink l p)).
Proof.
  induction l as [|[k r] l IH]; cbn; [tauto|]. intros N. inversion N as [|z zs Nz Nr]; subst. destruct (Nat.eqb_spec r p) as [->|D]; [exact Nz|]. cbn. intros [E|I]; [contradiction|]. exact (IH Nr I).
Qed.
Lemma unlink_nodup l p : NoDup (map snd l) -> NoDup (map snd (unlink l p)).
Proof.
  induction l as [|[k r] l IH]; cbn; [auto|]. intros N. inversion N as [|z zs Nz Nr]; subst. destruct (r =? p); [exact Nr|]. cbn. constructor; [|auto]. intros I. apply Nz. apply in_map_iff in I as ([a b] & E & I). cbn in E. subst b. apply unlink_in in I. apply in_map_iff. exists (a, r). auto.
Qed.
Lemma unlink_falling b l p : falling b l -> falling b (unlink l p).
Proof.
  revert b. induction l as [|[k r] l IH]; cbn; [auto|]. intros b [A B]. destruct (r =? p); [|cbn; auto]. apply falling_le with k; [lia|exact B].
Qed.
Lemma falling_head b l : falling b l -> falling (match l with (k, _) :: _ => S k | [] => 0 end) l.
Proof. destruct l as [|[k q] l]; cbn; [auto|]. intros [A B]. split; [lia|exact B]. Qed.
Lemma unlink_len l p : In p (map snd l) -> S (length (unlink l p)) = length l.
Proof. induction l as [|[k r] l IH]; cbn; [tauto|]. intros I. destruct (Nat.eqb_spec r p); [reflexivity|]. cbn. rewrite IH; [reflexivity|]. destruct I; [contradiction|assumption]. Qed.
Lemma dead_in s p : dead s p = true -> In p (freed s).
Proof. unfold dead. intros E. apply existsb_exists in E as (q & I & Q). apply Nat.eqb_eq in Q. subst q. exact I. Qed.
Lemma live_dead s p : ~ In p (freed s) -> dead s p = false.
Proof. intros N. destruct (dead s p) eqn:D; [apply dead_in in D; contradiction|reflexivity]. Qed.
Lemma touch_live s p : bad s = false -> ~ In p (freed s) -> touch s p = s.
Proof. intros B N. unfold touch. rewrite (live_dead s p N), B. destruct s; cbn in *; congruence. Qed.

Lemma own_live s x p : inv s -> In x (pcs s) -> ptr x = Some p -> ~ In p (freed (sh s)).
Proof.
  intros ((_ & _ & L & _) & O & _) I P. specialize (O x I). destruct x as [|h q|h q|h q]; cbn in *; try discriminate; injection P as ->; [apply L; apply in_map_iff; exists (h, p); auto|apply L; apply in_map_iff; exists (h, p); auto|tauto].
Qed.
Lemma in_at s x : In x (pcs s) -> exists i, nth_error (pcs s) i = Some x.
Proof. apply In_nth_error. Qed.
Lemma step_inv s i o s' : inv s -> (nth_error (pcs s) i = Some Idle -> carefully s o) -> move s i o = Some s' -> inv s'.
Proof.
  intros V M E. unfold move in E. destruct (nth_error (pcs s) i) as [x|] eqn:N; [|discriminate E]. pose proof V as ((F & ND & Li & Lf & NF & B) & O & X & C).
  pose proof (nth_error_In _ _ N) as Ix. destruct x as [|h p|h p|h p]; cbn iota in E.
  - specialize (M eq_refl). destruct o as [|h|h].
    + injection E as <-. unfold add. destruct (WP11_TOKEN_OBJECT_CNT_MAX <=? cnt (sh s))%Z eqn:Q.
      * repeat split; auto; cbn [sh at_ pcs] in *; [apply Li; assumption|apply Li; assumption| |].
        -- intros y I. apply In_nth_error in I as (j & J). apply setpc_at with (y := Idle) in J as [[-> ->]|[D J]]; [exact Logic.I| |exact N]. apply O. eapply nth_error_In; eauto.
        -- intros a b y z D A Z Ey. apply setpc_at with (y := Idle) in A as [[-> ->]|[D1 A]]; [discriminate Ey| |exact N]. apply setpc_at with (y := Idle) in Z as [[-> ->]|[D2 Z]]; [|eauto|exact N]. destruct y; discriminate.
      * split; [|split; [|split]].
        -- unfold sane. cbn [sh at_ objs next freed bad]. split; [|split; [|split; [|split; [|split]]]]; auto.
           ++ cbn. split; [lia|]. destruct (objs (sh s)) as [|[k q] l]; [exact Logic.I|]. exact F.
           ++ cbn. constructor; [|exact ND]. intros I. apply Li in I. lia.
           ++ cbn. intros p [<-|I]; [split; [lia|]; intros I; apply Lf in I; lia|]. apply Li in I as [A A2]. split; [lia|exact A2].
           ++ intros p I. apply Lf in I. lia.
        -- intros y I. cbn [pcs at_] in I. apply In_nth_error in I as (j & J). apply setpc_at with (y := Idle) in J as [[-> ->]|[D J]]; [exact Logic.I| |exact N].
           specialize (O y (nth_error_In _ _ J)). destruct y as [|h p|h p|h p]; cbn in *; auto. destruct O as (O1 & O2 & O3). repeat split; auto. intros [E|I]; [lia|auto].
        -- cbn [pcs at_]. intros a b y z D A Z Ey. apply setpc_at with (y := Idle) in A as [[-> ->]|[D1 A]]; [discriminate Ey| |exact N]. apply setpc_at with (y := Idle) in Z as [[-> ->]|[D2 Z]]; [|eauto|exact N]. destruct y; discriminate.
        -- cbn [sh at_ cnt objs length]. rewrite C. lia.
    + destruct (lookup (sh s) h) as [p|] eqn:L; injection E as <-; [|exact V]. apply lookup_in in L. cbn [carefully] in M. rewrite forallb_forall in M.
      split; [exact (conj F (conj ND (conj Li (conj Lf (conj NF B)))))|]. split; [|split; [|exact C]].
      * cbn [pcs at_]. intros y I. apply In_nth_error in I as (j & J). apply setpc_at with (y := Idle) in J as [[-> ->]|[D J]]; [exact L| |exact N]. exact (O y (nth_error_In _ _ J)).
      * cbn [pcs at_]. intros a b y z D A Z Ey. apply setpc_at with (y := Idle) in A as [[-> ->]|[D1 A]]; [discriminate Ey| |exact N]. apply setpc_at with (y := Idle) in Z as [[-> ->]|[D2 Z]]; [|eauto|exact N].
        pose proof (nth_error_In _ _ A) as Iy. specialize (O y Iy). specialize (M y Iy). cbn [ptr]. intros Q. destruct y as [|k q|k q|k q]; try discriminate; cbn in Q; injection Q as ->; cbn in O, M.
        -- rewrite (inj_snd _ _ _ _ ND O L), Nat.eqb_refl in M. discriminate M.
        -- destruct O as (O & _). apply O. apply in_map_iff. exists (h, p). auto.
    + destruct (lookup (sh s) h) as [p|] eqn:L; injection E as <-; [|exact V]. apply lookup_in in L. cbn [carefully] in M. rewrite forallb_forall in M.
      assert (Free : forall y, In y (pcs s) -> ptr y <> Some p).
      { intros y Iy Q. specialize (O y Iy). specialize (M y Iy). destruct y as [|k q|k q|k q]; try discriminate; cbn in Q; injection Q as ->; cbn in O, M.
        - rewrite (inj_snd _ _ _ _ ND O L), Nat.eqb_refl in M. discriminate M.
        - rewrite (inj_snd _ _ _ _ ND O L), Nat.eqb_refl in M. discriminate M.
        - destruct O as (O & _). apply O. apply in_map_iff. exists (h, p). auto. }
      split; [exact (conj F (conj ND (conj Li (conj Lf (conj NF B)))))|]. split; [|split; [|exact C]].
      * cbn [pcs at_]. intros y I. apply In_nth_error in I as (j & J). apply setpc_at with (y := Idle) in J as [[-> ->]|[D J]]; [exact L| |exact N]. exact (O y (nth_error_In _ _ J)).
      * cbn [pcs at_]. intros a b y z D A Z Ey. apply setpc_at with (y := Idle) in A as [[-> ->]|[D1 A]]; [| |exact N].
        -- apply setpc_at with (y := Idle) in Z as [[-> ->]|[D2 Z]]; [contradiction| |exact N]. cbn [ptr]. intros Q. apply (Free z (nth_error_In _ _ Z)). congruence.
        -- apply setpc_at with (y := Idle) in Z as [[-> ->]|[D2 Z]]; [|eauto|exact N]. cbn [ptr]. apply Free. eapply nth_error_In; eauto.
  - injection E as <-. pose proof (own_live s _ p V Ix eq_refl) as Lv. rewrite touch_live by assumption.
    split; [exact (conj F (conj ND (conj Li (conj Lf (conj NF B)))))|]. split; [|split; [|exact C]].
    + cbn [pcs at_]. intros y I. apply In_nth_error in I as (j & J). apply setpc_at with (y := Using h p) in J as [[-> ->]|[D J]]; [exact Logic.I| |exact N]. exact (O y (nth_error_In _ _ J)).
    + cbn [pcs at_]. intros a b y z D A Z Ey. apply setpc_at with (y := Using h p) in A as [[-> ->]|[D1 A]]; [discriminate Ey| |exact N]. apply setpc_at with (y := Using h p) in Z as [[-> ->]|[D2 Z]]; [|eauto|exact N]. destruct y; discriminate.
  - injection E as <-. pose proof (own_live s _ p V Ix eq_refl) as Lv. rewrite touch_live by assumption. pose proof (O _ Ix) as Ip. cbn in Ip. assert (Ip2 : In p (map snd (objs (sh s)))) by (apply in_map_iff; exists (h, p); auto).
    split; [|split; [|split]].
    + unfold sane, remove. cbn [sh at_ objs next freed bad]. split; [|split; [|split; [|split; [|split]]]]; auto.
      * eapply falling_head. eapply unlink_falling. exact F.
      * apply unlink_nodup. exact ND.
      * intros q I. apply Li. apply in_map_iff in I as (e & <- & I). apply in_map_iff. exists e. split; [reflexivity|]. eapply unlink_in. exact I.
    + cbn [pcs at_]. intros y I. apply In_nth_error in I as (j & J). apply setpc_at with (y := Found h p) in J as [[-> ->]|[D J]]; [| |exact N].
      * cbn. split; [apply unlink_gone; exact ND|]. apply Li in Ip2. tauto.
      * assert (P : Some p <> ptr y) by exact (X i j (Found h p) y (not_eq_sym D) N J eq_refl). specialize (O y (nth_error_In _ _ J)). destruct y as [|k q|k q|k q]; cbn in *; auto; try (apply unlink_keeps; [exact O|congruence]).
        destruct O as (O1 & O2 & O3). repeat split; auto. intros I. apply O1. apply in_map_iff in I as (e & <- & I). apply in_map_iff. exists e. split; [reflexivity|]. eapply unlink_in. exact I.
    + cbn [pcs at_]. intros a b y z D A Z Ey. apply setpc_at with (y := Found h p) in A as [[-> ->]|[D1 A]]; [| |exact N].
      * apply setpc_at with (y := Found h p) in Z as [[-> ->]|[D2 Z]]; [contradiction| |exact N]. exact (X i b (Found h p) z D N Z eq_refl).
      * apply setpc_at with (y := Found h p) in Z as [[-> ->]|[D2 Z]]; [exact (X a i y (Found h p) D A N Ey)|eauto|exact N].
    + cbn [sh at_ remove cnt objs]. rewrite C. apply unlink_len in Ip2. lia.
  - injection E as <-. pose proof (own_live s _ p V Ix eq_refl) as Lv. rewrite touch_live by assumption. pose proof (O _ Ix) as Ip. cbn in Ip. destruct Ip as (Ip1 & Ip2 & Ip3).
    split; [|split; [|split; [|exact C]]].
    + unfold sane, free. cbn [sh at_ objs next freed bad]. split; [|split; [|split; [|split; [|split]]]]; auto.
      * intros q I. split; [apply Li; exact I|]. intros [<-|J]; [contradiction|]. apply Li in I. tauto.
      * intros q [<-|I]; [exact Ip3|auto].
      * constructor; assumption.
    + cbn [pcs at_]. intros y I. apply In_nth_error in I as (j & J). apply setpc_at with (y := Unlinked h p) in J as [[-> ->]|[D J]]; [exact Logic.I| |exact N].
      assert (P : Some p <> ptr y) by exact (X i j (Unlinked h p) y (not_eq_sym D) N J eq_refl). specialize (O y (nth_error_In _ _ J)). destruct y as [|k q|k q|k q]; cbn in *; auto.
      destruct O as (O1 & O2 & O3). repeat split; auto. intros [->|I]; [apply P; reflexivity|auto].
    + cbn [pcs at_]. intros a b y z D A Z Ey. apply setpc_at with (y := Unlinked h p) in A as [[-> ->]|[D1 A]]; [discriminate Ey| |exact N]. apply setpc_at with (y := Unlinked h p) in Z as [[-> ->]|[D2 Z]]; [|eauto|exact N]. destruct y; discriminate.
Qed.
Lemma steps_inv n s : steps carefully (init n) s -> inv s.
Proof.
  intros S. remember (init n) as s0 eqn:E. induction S; [subst s|eapply step_inv; eauto].
  assert (P : forall x, In x (pcs (init n)) -> x = Idle) by (cbn; intros x I; apply repeat_spec in I; exact I).
  split; [|split; [|split]]; cbn [sh init objs cnt length].
  - unfold sane; cbn. repeat split; try tauto; constructor.
  - intros x I. rewrite (P x I). exact Logic.I.
  - intros i j x y _ A _ Ex. apply nth_error_In in A. rewrite (P x A) in Ex. discriminate Ex.
  - reflexivity.
Qed.
Theorem C80_partial n s : steps carefully (init n) s -> bad (sh s) = false /\ NoDup (freed (sh s)).
Proof. intros S. apply steps_inv in S as ((_ & _ & _ & _ & N & B) & _). auto. Qed.
Theorem C81_partial n s : steps carefully (init n) s -> cnt (sh s) = Z.of_nat (length (objs (sh s))).
Proof. intros S. apply steps_inv in S as (_ & _ & _ & C). exact C. Qed.
Print Assumptions C80_partial.
Print Assumptions C81_partial.
(** Two threads create and use objects; one destroys its own while the other uses another. *)
Fixpoint gmoves (l : list (nat * op)) (s : state) : option state :=
  match l with
  | [] => Some s
  | (i, o) :: r =>
      if match nth_error (pcs s) i, o with Some Idle, Use h => forallb (fun x => negb (ending h x)) (pcs s) | Some Idle, Destroy h => forallb (fun x => negb (busy h x)) (pcs s) | _, _ => true end
      then match move s i o with Some s' => gmoves r s' | None => None end else None
  end.
Lemma gmoves_steps l : forall a s s', steps carefully a s -> gmoves l s = Some s' -> steps carefully a s'.
Proof.
  induction l as [|[i o] l IH]; intros a s s' S E; cbn [gmoves] in E; [injection E as <-; exact S|].
  destruct (match nth_error (pcs s) i, o with Some Idle, Use h => forallb (fun x => negb (ending h x)) (pcs s) | Some Idle, Destroy h => forallb (fun x => negb (busy h x)) (pcs s) | _, _ => true end) eqn:G; [|discriminate E].
  destruct (move s i o) as [s1|] eqn:M; [|discriminate E]. eapply IH; [|exact E]. eapply ss_1; [exact S| |exact M]. intros N. rewrite N in G. destruct o; [exact I|exact G|exact G].
Qed.
Definition apart : list (nat * op) := [(0, Create); (1, Create); (0, Create); (0, Use 1); (1, Destroy 3); (2, Use 1); (1, Destroy 3); (0, Use 1); (1, Destroy 3); (0, Create); (1, Use 3); (0, Destroy 2); (2, Use 1); (0, Destroy 2); (1, Use 3); (0, Destroy 2)].
Lemma apart_runs : gmoves apart (init 3) = Some (mkS (mkSh [(3, 3); (1, 0)] 2%Z [1; 2] 4 false) [Idle; Idle; Idle]).
Proof. vm_compute. reflexivity. Qed.
Example C80_case : exists s, steps carefully (init 3) s /\ freed (sh s) = [1; 2] /\ map fst (objs (sh s)) = [3; 1].
Proof. eexists. split; [exact (gmoves_steps _ _ _ _ (ss_0 _ _) apart_runs)|]. split; reflexivity. Qed.
