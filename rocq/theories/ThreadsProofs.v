(** Lock discipline of [Threads]: a static check of [code] and what it implies for every interleaving. *)
From Coq Require Import List Arith Lia Bool.
Import ListNotations.
From Verif Require Import Threads.

Definition rank (l : lock) : nat := match l with LSlot => 0 | LTok => 1 | LRng => 2 | LGlob => 3 end.
Definition acq_ok (h : held) (l : lock) (m : mode) : bool :=
  orb (forallb (fun x => rank (fst x) <? rank l) h) (andb (mode_eqb m RO) (andb (has h l RO) (negb (has h l RW)))).
Section Check.
  (** [acc f write h]: the access is allowed with the locks [h]. *)
  Variable acc : field -> bool -> held -> bool.
  Definition chk_ev (e : ev) (h : held) : option held :=
    match e with
    | Acq l m => if acq_ok h l m then Some ((l, m) :: h) else None
    | Rel l m => if has h l m then Some (drop (l, m) h) else None
    | Rd f => if acc f false h then Some h else None
    | Wr f => if acc f true h then Some h else None
    end.
  Fixpoint pchk (p : list ev) (h : held) : option held := match p with [] => Some h | e :: r => match chk_ev e h with Some h' => pchk r h' | None => None end end.
  Fixpoint heq (a b : held) : bool := match a, b with [], [] => true | x :: r, y :: s => andb (hm_eqb x y) (heq r s) | _, _ => false end.
  Fixpoint chk (c : code) (h : held) : option held :=
    match c with
    | Skip => Some h
    | E e => chk_ev e h
    | Seq a b => match chk a h with Some h' => chk b h' | None => None end
    | Alt a b => match chk a h, chk b h with Some x, Some y => if heq x y then Some x else None | _, _ => None end
    | Loop a => match chk a h with Some x => if heq x h then Some h else None | None => None end
    end.
  Lemma hm_eqb_eq a b : hm_eqb a b = true <-> a = b.
  Proof. destruct a as [[] []], b as [[] []]; cbn; split; congruence. Qed.
  Lemma heq_eq a b : heq a b = true -> a = b.
  Proof. revert b. induction a as [|x a IH]; intros [|y b]; cbn [heq]; try discriminate; [reflexivity|]. intros H. apply andb_prop in H as [H K]. apply hm_eqb_eq in H as ->. f_equal. auto. Qed.
  Lemma pchk_app p q h : pchk (p ++ q) h = match pchk p h with Some h' => pchk q h' | None => None end.
  Proof. revert h. induction p as [|e p IH]; intros h; cbn [pchk app]; [reflexivity|]. destruct (chk_ev e h); [apply IH|reflexivity]. Qed.
  Lemma chk_path c p : path c p -> forall h h', chk c h = Some h' -> pchk p h = Some h'.
  Proof.
    induction 1; intros h h' C; cbn [chk] in C; cbn [pchk]; auto.
    - rewrite C. reflexivity.
    - rewrite pchk_app. destruct (chk a h) as [h1|] eqn:A; [|discriminate C]. rewrite (IHpath1 _ _ A). auto.
    - destruct (chk a h) as [x|] eqn:A; [|discriminate C]. destruct (chk b h) as [y|]; [|discriminate C]. destruct (heq x y); [|discriminate C]. rewrite <- C. auto.
    - destruct (chk a h) as [x|] eqn:A; [|discriminate C]. destruct (chk b h) as [y|] eqn:B; [|discriminate C]. destruct (heq x y) eqn:Q; [|discriminate C]. apply heq_eq in Q as <-. rewrite <- C. auto.
    - destruct (chk a h) as [x|]; [|discriminate C]. destruct (heq x h); [|discriminate C]. exact C.
    - rewrite pchk_app. destruct (chk a h) as [x|] eqn:A; [|discriminate C]. destruct (heq x h) eqn:Q; [|discriminate C]. pose proof (heq_eq _ _ Q) as ->. injection C as <-.
      rewrite (IHpath1 _ _ A). apply IHpath2. cbn [chk]. rewrite A, Q. reflexivity.
  Qed.
  Definition good (cs : list code) : bool := forallb (fun c => match chk c [] with Some [] => true | _ => false end) cs.
  Lemma client_good cs p : good cs = true -> client cs p -> pchk p [] = Some [].
  Proof.
    intros G. induction 1 as [|c p q I P C IH]; [reflexivity|]. rewrite pchk_app. unfold good in G. rewrite forallb_forall in G. specialize (G c I).
    destruct (chk c []) as [[|? ?]|] eqn:K; try discriminate G. rewrite (chk_path c p P _ _ K). exact IH.
  Qed.

  (** ** The invariant *)
  Lemma has_in h l m : has h l m = true <-> In (l, m) h.
  Proof. unfold has. rewrite existsb_exists. split; [intros (x & I & Q); apply hm_eqb_eq in Q as ->; exact I|intros I; exists (l, m); split; [exact I|apply hm_eqb_eq; reflexivity]]. Qed.
  Lemma drop_in x y h : In x (drop y h) -> In x h.
  Proof. induction h as [|z h IH]; cbn [drop]; [auto|]. destruct (hm_eqb y z); [right; auto|]. intros [->|I]; [left; reflexivity|right; auto]. Qed.
  Definition apart (a b : thread) : Prop := forall l m, In (l, RW) (t_held a) -> ~ In (l, m) (t_held b).
  Definition inv (ts : list thread) : Prop :=
    (forall t, In t ts -> pchk (t_todo t) (t_held t) = Some []) /\
    (forall i j a b, i <> j -> nth_error ts i = Some a -> nth_error ts j = Some b -> apart a b).
  Lemma upd_same ts i t u : nth_error ts i = Some u -> nth_error (upd ts i t) i = Some t.
  Proof. revert i. induction ts as [|x ts IH]; intros [|i]; cbn; try discriminate; [reflexivity|apply IH]. Qed.
  Lemma upd_other ts i j t : i <> j -> nth_error (upd ts i t) j = nth_error ts j.
  Proof. revert i j. induction ts as [|x ts IH]; intros [|i] [|j] N; cbn; try reflexivity; [lia|apply IH; lia]. Qed.
  Lemma start_inv cs ps : good cs = true -> Forall (client cs) ps -> inv (start ps).
  Proof.
    intros G F. split.
    - intros t I. unfold start in I. apply in_map_iff in I as (p & <- & I). cbn. eapply client_good; [exact G|]. rewrite Forall_forall in F. auto.
    - intros i j a b _ A _ l m I. unfold start in A. apply nth_error_In in A. apply in_map_iff in A as (p & <- & _). destruct I.
  Qed.
  Lemma admits_all ts l m : admits ts l m = true -> forall t, In t ts -> ~ In (l, RW) (t_held t) /\ (m = RW -> ~ In (l, RO) (t_held t)).
  Proof.
    intros A t I. destruct m; unfold admits in A; rewrite forallb_forall in A; specialize (A t I).
    - rewrite negb_true_iff in A. split; [intros J; apply has_in in J; congruence|discriminate].
    - rewrite negb_true_iff, orb_false_iff in A. destruct A as [A B]. split; [intros J|intros _ J]; apply has_in in J; congruence.
  Qed.
  Lemma tstep_held ts t t' : tstep ts t t' -> forall l m, In (l, m) (t_held t') -> In (l, m) (t_held t) \/ admits ts l m = true.
  Proof. destruct 1; cbn; intros l0 m0 I; auto. - destruct I as [Q|I]; [injection Q as <- <-; auto|auto]. - left. eapply drop_in; eauto. Qed.
  Lemma step_inv ts ts' : inv ts -> step ts ts' -> inv ts'.
  Proof.
    intros [P A] S. destruct S as [i t t' N S]. split.
    - intros u I. apply In_nth_error in I as [j J]. destruct (Nat.eq_dec i j) as [<-|D].
      + rewrite (upd_same _ _ _ _ N) in J. injection J as <-. specialize (P t (nth_error_In _ _ N)). destruct S; cbn [t_todo t_held pchk chk_ev] in *.
        * destruct (acq_ok h l m); [exact P|discriminate P].
        * rewrite H in P. exact P.
        * destruct (acc f false h); [exact P|discriminate P].
        * destruct (acc f true h); [exact P|discriminate P].
      + rewrite upd_other in J by exact D. apply P. eapply nth_error_In; eauto.
    - intros j k a b D Ja Kb l m I I2.
      destruct (Nat.eq_dec i j) as [<-|D1]; [rewrite (upd_same _ _ _ _ N) in Ja; injection Ja as <-|rewrite upd_other in Ja by exact D1].
      + rewrite upd_other in Kb by exact D. destruct (tstep_held _ _ _ S _ _ I) as [O|O]; [eapply (A i k); eauto|].
        destruct (admits_all _ _ _ O b) as [X Y]; [eapply nth_error_In; eauto|]. destruct m; [apply Y; auto|auto].
      + destruct (Nat.eq_dec i k) as [<-|D2]; [rewrite (upd_same _ _ _ _ N) in Kb; injection Kb as <-|rewrite upd_other in Kb by exact D2; eapply (A j k); eauto].
        destruct (tstep_held _ _ _ S _ _ I2) as [O|O]; [eapply (A j i); eauto|]. destruct (admits_all _ _ _ O a) as [X Y]; [eapply nth_error_In; eauto|]. auto.
  Qed.
  Lemma steps_inv ts ts' : inv ts -> steps ts ts' -> inv ts'.
  Proof. intros I S. induction S; [exact I|]. eapply step_inv; [apply IHS; exact I|exact H]. Qed.

  (** ** Progress *)
  Lemma not_admitted ts l m : admits ts l m = false -> exists t, In t ts /\ (In (l, RW) (t_held t) \/ m = RW /\ In (l, RO) (t_held t)).
  Proof.
    intros A. destruct (existsb (fun t => orb (has (t_held t) l RW) (andb (mode_eqb m RW) (has (t_held t) l RO))) ts) eqn:X.
    - apply existsb_exists in X as (t & I & Q). exists t. split; [exact I|]. apply orb_prop in Q as [Q|Q]; [left; apply has_in; exact Q|]. apply andb_prop in Q as [Q R]. right. split; [destruct m; [discriminate Q|reflexivity]|apply has_in; exact R].
    - exfalso. assert (F : forall t, In t ts -> orb (has (t_held t) l RW) (andb (mode_eqb m RW) (has (t_held t) l RO)) = false).
      { intros t I. destruct (orb _ _) eqn:O; [|reflexivity]. rewrite <- X. symmetry. apply existsb_exists. eauto. }
      enough (admits ts l m = true) by congruence. destruct m; cbn [admits]; apply forallb_forall; intros t I; specialize (F t I); cbn [mode_eqb andb] in F.
      + rewrite orb_false_r in F. rewrite F. reflexivity.
      + rewrite F. reflexivity.
  Qed.
  (** Taking a read lock again while holding it is always granted. *)
  Lemma nested ts i t l : inv ts -> nth_error ts i = Some t -> has (t_held t) l RO = true -> has (t_held t) l RW = false -> admits ts l RO = true.
  Proof.
    intros [_ A] N H1 H2. destruct (admits ts l RO) eqn:Ad; [reflexivity|]. exfalso. apply not_admitted in Ad as (b & Ib & [Hb|[Hb _]]); [|discriminate Hb]. apply In_nth_error in Ib as [j J].
    destruct (Nat.eq_dec i j) as [<-|D]; [rewrite N in J; injection J as <-; apply has_in in Hb; congruence|]. apply (A j i b t (not_eq_sym D) J N l RO Hb). apply has_in. exact H1.
  Qed.
  Lemma progress_from ts : inv ts -> forall k t i, nth_error ts i = Some t -> t_todo t <> [] ->
    (forall l m r, t_todo t = Acq l m :: r -> admits ts l m = true \/ 4 <= rank l + k) -> exists ts', step ts ts'.
  Proof.
    intros Iv. pose proof Iv as [P A]. induction k as [|k IH]; intros t i N T B; pose proof (P t (nth_error_In _ _ N)) as C; destruct t as [h todo]; cbn [t_todo t_held] in *; destruct todo as [|e r]; try contradiction.
    - destruct e; cbn [pchk chk_ev] in C.
      + destruct (B _ _ _ eq_refl) as [Ad|Bd]; [eexists; econstructor; [exact N|constructor; exact Ad]|]. exfalso. destruct l; cbn in Bd; lia.
      + destruct (has h l m) eqn:Q; [|discriminate C]. eexists. econstructor; [exact N|constructor; exact Q].
      + eexists. econstructor; [exact N|constructor].
      + eexists. econstructor; [exact N|constructor].
    - destruct e; cbn [pchk chk_ev] in C.
      + destruct (admits ts l m) eqn:Ad; [eexists; econstructor; [exact N|constructor; exact Ad]|].
        destruct (acq_ok h l m) eqn:Ok; [|discriminate C]. destruct (B _ _ _ eq_refl) as [Bd|Bd]; [congruence|]. apply not_admitted in Ad as (b & Ib & Hb). apply In_nth_error in Ib as [j J].
        assert (Hb' : exists m', In (l, m') (t_held b)) by (destruct Hb as [Hb|[_ Hb]]; eauto). destruct Hb' as [m' Hm]. pose proof (P b (nth_error_In _ _ J)) as Cb.
        apply (IH b j J).
        * intros Q. rewrite Q in Cb. cbn in Cb. injection Cb as Cb. rewrite Cb in Hm. destruct Hm.
        * intros l2 m2 r2 Q. rewrite Q in Cb. cbn [pchk chk_ev] in Cb. destruct (acq_ok (t_held b) l2 m2) eqn:Ok2; [|discriminate Cb]. apply orb_prop in Ok2 as [Ok2|Ok2].
          -- right. rewrite forallb_forall in Ok2. specialize (Ok2 _ Hm). apply Nat.ltb_lt in Ok2. cbn [fst] in Ok2. lia.
          -- left. apply andb_prop in Ok2 as [M Ok2]. apply andb_prop in Ok2 as [O1 O2]. rewrite negb_true_iff in O2. destruct m2; [|discriminate M]. eapply nested; eauto.
      + destruct (has h l m) eqn:Q; [|discriminate C]. eexists. econstructor; [exact N|constructor; exact Q].
      + eexists. econstructor; [exact N|constructor].
      + eexists. econstructor; [exact N|constructor].
  Qed.
  Lemma progress ts t : inv ts -> In t ts -> t_todo t <> [] -> exists ts', step ts ts'.
  Proof. intros I J T. apply In_nth_error in J as [i J]. apply (progress_from ts I 4 t i J T). intros. right. lia. Qed.

  (** ** Exclusion *)
  Definition guards (f : field) (l : lock) : Prop := forall h w, acc f w h = true -> if w then In (l, RW) h else In (l, RO) h \/ In (l, RW) h.
  Definition next_acc (t : thread) (f : field) (w : bool) : Prop := exists r, t_todo t = (if w then Wr f else Rd f) :: r.
  Lemma no_clash f l ts i j a b w : guards f l -> inv ts -> i <> j -> nth_error ts i = Some a -> nth_error ts j = Some b -> next_acc a f true -> next_acc b f w -> False.
  Proof.
    intros G [P A] D Ia Jb (ra & Ta) (rb & Tb). pose proof (P a (nth_error_In _ _ Ia)) as Ca. pose proof (P b (nth_error_In _ _ Jb)) as Cb. rewrite Ta in Ca. rewrite Tb in Cb.
    destruct w; cbn [pchk chk_ev] in Ca, Cb.
    - destruct (acc f true (t_held a)) eqn:Qa; [|discriminate Ca]. destruct (acc f true (t_held b)) eqn:Qb; [|discriminate Cb]. apply G in Qa, Qb. exact (A i j a b D Ia Jb l RW Qa Qb).
    - destruct (acc f true (t_held a)) eqn:Qa; [|discriminate Ca]. destruct (acc f false (t_held b)) eqn:Qb; [|discriminate Cb]. apply G in Qa, Qb. destruct Qb as [Qb|Qb]; exact (A i j a b D Ia Jb l _ Qa Qb).
  Qed.
End Check.

(** Each step uses up one event, so a run that cannot get stuck ends. *)
Definition left (ts : list thread) : nat := fold_right (fun t n => length (t_todo t) + n) 0 ts.
Lemma upd_left ts i t t' : nth_error ts i = Some t -> length (t_todo t) = S (length (t_todo t')) -> left ts = S (left (upd ts i t')).
Proof. revert i. induction ts as [|x ts IH]; intros [|i]; cbn; try discriminate; intros N L; [injection N as ->; unfold left in *; lia|]. pose proof (IH _ N L) as H. unfold left in *. lia. Qed.
Lemma step_left ts ts' : step ts ts' -> left ts = S (left ts').
Proof. destruct 1 as [i t t' N S]. eapply upd_left; [exact N|]. destruct S; reflexivity. Qed.
Lemma steps_trans a b c : steps a b -> steps b c -> steps a c.
Proof. intros A B. induction B; [exact A|]. econstructor; [apply IHB; exact A|exact H]. Qed.
Lemma completes acc ts : inv acc ts -> exists ts', steps ts ts' /\ (forall t, In t ts' -> t_todo t = [] /\ t_held t = []).
Proof.
  remember (left ts) as n eqn:Q. revert ts Q. induction n as [n IH] using lt_wf_ind. intros ts -> I.
  destruct (existsb (fun t => match t_todo t with [] => false | _ => true end) ts) eqn:X.
  - apply existsb_exists in X as (t & J & T). destruct (progress acc ts t I J) as (ts1 & S); [intros Z; rewrite Z in T; discriminate T|]. pose proof (step_left _ _ S) as L.
    destruct (IH (left ts1)) with (ts := ts1) as (ts2 & S2 & F); [lia|reflexivity|eapply step_inv; eauto|]. exists ts2. split; [|exact F]. eapply steps_trans; [|exact S2]. econstructor; [constructor|exact S].
  - exists ts. split; [constructor|]. intros t J. assert (T : t_todo t = []). { destruct (t_todo t) eqn:Z; [reflexivity|]. exfalso. enough (existsb (fun t => match t_todo t with [] => false | _ => true end) ts = true) by congruence. apply existsb_exists. exists t. rewrite Z. auto. }
    split; [exact T|]. destruct I as [P _]. specialize (P t J). rewrite T in P. cbn in P. congruence.
Qed.

(** ** Computing schedules and paths *)
Definition tnext (ts : list thread) (t : thread) : option thread :=
  match t_todo t with
  | [] => None
  | Acq l m :: r => if admits ts l m then Some (mkT ((l, m) :: t_held t) r) else None
  | Rel l m :: r => if has (t_held t) l m then Some (mkT (drop (l, m) (t_held t)) r) else None
  | _ :: r => Some (mkT (t_held t) r)
  end.
Fixpoint sched (is : list nat) (ts : list thread) : option (list thread) :=
  match is with [] => Some ts | i :: r => match nth_error ts i with Some t => match tnext ts t with Some t' => sched r (upd ts i t') | None => None end | None => None end end.
Lemma tnext_step ts t t' : tnext ts t = Some t' -> tstep ts t t'.
Proof. destruct t as [h [|[l m|l m|f|f] r]]; unfold tnext; cbn [t_todo t_held]; [discriminate| | |intros Q; injection Q as <-; constructor..].
  - destruct (admits ts l m) eqn:A; [|discriminate]. intros Q. injection Q as <-. constructor. exact A.
  - destruct (has h l m) eqn:A; [|discriminate]. intros Q. injection Q as <-. constructor. exact A.
Qed.
Lemma sched_steps is ts ts' : sched is ts = Some ts' -> steps ts ts'.
Proof.
  revert ts. induction is as [|i is IH]; intros ts; cbn [sched]; [intros Q; injection Q as <-; constructor|]. destruct (nth_error ts i) as [t|] eqn:N; [|discriminate]. destruct (tnext ts t) as [t1|] eqn:T; [|discriminate]. intros Q.
  eapply steps_trans; [|apply IH; exact Q]. econstructor; [constructor|]. econstructor; [exact N|]. apply tnext_step. exact T.
Qed.
(** One path through [c], the decisions being taken from a list: [true] is the
    second branch or once more round the loop. *)
Fixpoint trace (n : nat) (c : code) (bs : list bool) : option (list ev * list bool) :=
  match n with
  | O => None
  | S n =>
    match c with
    | Skip => Some ([], bs)
    | E e => Some ([e], bs)
    | Seq a b => match trace n a bs with Some (p, bs) => match trace n b bs with Some (q, bs) => Some (p ++ q, bs) | None => None end | None => None end
    | Alt a b => match bs with [] => None | x :: bs => if x then trace n b bs else trace n a bs end
    | Loop a => match bs with true :: bs => match trace n a bs with Some (p, bs) => match trace n c bs with Some (q, bs) => Some (p ++ q, bs) | None => None end | None => None end | false :: bs => Some ([], bs) | [] => None end
    end
  end.
Lemma trace_path n c bs p bs' : trace n c bs = Some (p, bs') -> path c p.
Proof.
  revert c bs p bs'. induction n as [|n IH]; intros c bs p bs'; cbn [trace]; [discriminate|]. destruct c.
  - intros Q. injection Q as <- _. constructor.
  - intros Q. injection Q as <- _. constructor.
  - destruct (trace n c1 bs) as [[q r]|] eqn:A; [|discriminate]. destruct (trace n c2 r) as [[q2 r2]|] eqn:B; [|discriminate]. intros Q. injection Q as <- _. constructor; eauto.
  - destruct bs as [|[] bs]; [discriminate| |]; intros Q; [apply p_right|apply p_left]; eauto.
  - destruct bs as [|[] bs]; [discriminate| |]; [|intros Q; injection Q as <- _; constructor].
    destruct (trace n c bs) as [[q r]|] eqn:A; [|discriminate]. destruct (trace n (Loop c) r) as [[q2 r2]|] eqn:B; [|discriminate]. intros Q. injection Q as <- _. econstructor; eauto.
Qed.
Lemma client_one cs c p : In c cs -> path c p -> client cs p.
Proof. intros I P. rewrite <- (app_nil_r p). econstructor; [exact I|exact P|constructor]. Qed.
