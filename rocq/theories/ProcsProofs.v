(** What a call does in memory and answers does not depend on the files, except for
    the first C_Initialize; and what it writes does not either. *)
From Verif Require Import Base Codec Ops Object Store Sys SysProofs Procs.
From Coq Require Import List Lia ZArith.
Import ListNotations.
Open Scope nat_scope.
Open Scope list_scope.

Definition lift {A B} (R : A -> B -> Prop) (r : res A) (r' : res B) : Prop :=
  match r, r' with Ok a, Ok b => R a b | Err a, Err b => a = b | Undef a, Undef b => a = b | _, _ => False end.
Lemma lift_bind A B A' B' (R : A -> B -> Prop) (S : A' -> B' -> Prop) r r' k k' : lift R r r' -> (forall a b, R a b -> lift S (k a) (k' b)) -> lift S (bind r k) (bind r' k').
Proof. destruct r, r'; cbn; try contradiction; auto. Qed.

Section T.
Variable w : world.
(** The files and logs the two start from. *)
Variables (d d' : fs) (l l' : list wop).
(** Equal in memory, having written the same. *)
Definition twin (a b : sys) : Prop := exists ws, a = mkSys (s_count a) (s_sess a) (s_tok a) (apply d ws) (l ++ ws) (s_uid a) /\ b = mkSys (s_count a) (s_sess a) (s_tok a) (apply d' ws) (l' ++ ws) (s_uid a).
Definition tw2 {A} (x : A * sys) (y : A * sys) : Prop := fst x = fst y /\ twin (snd x) (snd y).
Definition tw1 {A} (x : sys * A) (y : sys * A) : Prop := snd x = snd y /\ twin (fst x) (fst y).
Lemma twin_inv a b : twin a b -> s_count b = s_count a /\ s_sess b = s_sess a /\ s_tok b = s_tok a /\ s_uid b = s_uid a.
Proof. intros (ws & _ & ->). auto. Qed.
Lemma twin_tok a b t : twin a b -> twin (set_tok a t) (set_tok b t).
Proof. intros (ws & A & B). exists ws. rewrite A, B. split; reflexivity. Qed.
Lemma twin_sess a b t : twin a b -> twin (set_sess a t) (set_sess b t).
Proof. intros (ws & A & B). exists ws. rewrite A, B. split; reflexivity. Qed.
Lemma twin_uid a b t : twin a b -> twin (set_uid a t) (set_uid b t).
Proof. intros (ws & A & B). exists ws. rewrite A, B. split; reflexivity. Qed.
Lemma twin_ops a b t : twin a b -> twin (do_ops a t) (do_ops b t).
Proof.
  intros (ws & A & B). exists (ws ++ t). rewrite A, B. unfold do_ops, apply. cbn [s_count s_sess s_tok s_fs s_log s_uid]. rewrite !fold_left_app, !app_assoc. split; reflexivity.
Qed.
Lemma twin_put a b x : twin a b -> twin (put_sess a x) (put_sess b x).
Proof. intros T. unfold put_sess. destruct (twin_inv _ _ T) as (_ & -> & _). apply twin_sess. exact T. Qed.
Lemma twin_bump a b n : twin a b -> twin (bump a n) (bump b n).
Proof. intros T. unfold bump. destruct (twin_inv _ _ T) as (_ & _ & _ & ->). apply twin_uid. exact T. Qed.
Lemma twin_rv a b rv : twin a b -> lift tw1 (rv_ a rv) (rv_ b rv).
Proof. intros T. split; [reflexivity|exact T]. Qed.
Lemma twin_store rnd a b : twin a b -> lift tw2 (store w rnd a) (store w rnd b).
Proof.
  intros T. unfold store. destruct (twin_inv _ _ T) as (_ & _ & -> & _). destruct (Token_Store _ _ _) as [[[c t] ws]| |]; cbn [bind lift]; try reflexivity.
  split; [reflexivity|]. apply twin_ops, twin_tok, T.
Qed.
Lemma twin_add rnd a b x n o : twin a b -> lift tw2 (AddToSession w rnd a x n o) (AddToSession w rnd b x n o).
Proof.
  intros T. unfold AddToSession. destruct (n =? 0)%N.
  - destruct (_ <=? _)%Z; (split; [reflexivity|]); [exact T|apply twin_put, T].
  - destruct (twin_inv _ _ T) as (_ & _ & -> & _). destruct (_ <=? _)%Z; [split; [reflexivity|exact T]|]. destruct (Encode _ _ _ _) as [[c o2]| |]; cbn [bind lift]; try reflexivity.
    destruct (negb _); [split; [reflexivity|exact T]|]. eapply lift_bind; [apply twin_store, twin_tok, T|]. intros [c1 a1] [c2 b1] [_ Q]. split; [reflexivity|exact Q].
Qed.
Lemma twin_addo rnd a b x t o : twin a b -> lift tw2 (AddObject w rnd a x t o) (AddObject w rnd b x t o).
Proof.
  intros T. unfold AddObject. destruct (tmpl_token t); [|split; [reflexivity|exact T]]. eapply lift_bind; [apply twin_add, T|]. intros [[c1 h1] a1] [[c2 h2] b1] [E Q]. injection E as -> ->. split; [reflexivity|exact Q].
Qed.
Lemma twin_remove rnd a b x h o : twin a b -> lift twin (RemoveObject w rnd a x h o) (RemoveObject w rnd b x h o).
Proof.
  intros T. unfold RemoveObject. destruct (obj_free o); cbn [bind lift]; try reflexivity. destruct (on_token h); [|cbn [lift]; apply twin_put, T].
  destruct (o_onTok o); [|reflexivity]. destruct (no_kind o); [reflexivity|]. destruct (twin_inv _ _ T) as (_ & _ & -> & _).
  eapply lift_bind; [apply twin_store, twin_ops, twin_tok, T|]. intros [c1 a1] [c2 b1] [_ Q]. exact Q.
Qed.
Lemma twin_SO rnd a b p : twin a b -> lift tw2 (SetSOPin w rnd a p) (SetSOPin w rnd b p).
Proof. intros T. unfold SetSOPin. destruct (twin_inv _ _ T) as (_ & _ & -> & _). apply twin_store, twin_tok, T. Qed.
Lemma twin_User rnd a b p : twin a b -> lift tw2 (SetUserPin w rnd a p) (SetUserPin w rnd b p).
Proof. intros T. unfold SetUserPin. destruct (twin_inv _ _ T) as (_ & _ & -> & _). apply twin_store, twin_tok, T. Qed.
Lemma twin_get a b h : twin a b -> sess_get b h = sess_get a h.
Proof. intros T. unfold sess_get. destruct (twin_inv _ _ T) as (_ & -> & _). reflexivity. Qed.
Lemma twin_find a b x h : twin a b -> find_obj b x h = find_obj a x h.
Proof. intros T. unfold find_obj. destruct (twin_inv _ _ T) as (_ & _ & -> & _). reflexivity. Qed.
Lemma twin_init a b x c o : run_init w b x c o = run_init w a x c o.
Proof. reflexivity. Qed.
Lemma twin_cont a b x c : twin a b -> run_cont w b x c = run_cont w a x c.
Proof. intros T. unfold run_cont, find_uid, live. destruct (twin_inv _ _ T) as (_ & -> & -> & _). reflexivity. Qed.

Ltac same T := let A := fresh in let B := fresh in let C := fresh in let D := fresh in pose proof (twin_inv _ _ T) as (A & B & C & D); rewrite ?A, ?B, ?C, ?D, ?(twin_get _ _ _ T), ?(twin_find _ _ _ _ T), ?(twin_cont _ _ _ _ T); clear A B C D.
Lemma twin_obj a b o : twin a b -> twin (put_obj a o) (put_obj b o).
Proof. intros T. unfold put_obj. pose proof (twin_inv _ _ T) as (_ & -> & -> & _). apply twin_sess, twin_tok, T. Qed.
Ltac keeps := repeat first [assumption|apply twin_bump|apply twin_put|apply twin_obj|apply twin_tok|apply twin_sess].
Ltac pairs := let EE := fresh in let QQ := fresh in intros [? ?] [? ?] [EE QQ]; cbn [fst snd] in EE, QQ; subst.
Ltac go T := repeat first
  [ match goal with |- lift _ (Ok _) (Ok _) => split; [reflexivity|cbn [fst snd]; solve [keeps]] end
  | match goal with |- lift _ (rv_ _ _) (rv_ _ _) => apply twin_rv; solve [keeps] end
  | reflexivity
  | match goal with |- lift _ (bind ?x _) (bind ?x _) => destruct x as [?|?|?]; cbn [bind] end
  | match goal with |- lift _ (match ?x with _ => _ end) (match ?x with _ => _ end) => destruct x end
  | match goal with |- lift _ (bind (bind ?x _) _) (bind (bind ?x _) _) => destruct x as [?|?|?]; cbn [bind] end
  | match goal with |- lift _ (bind (match ?x with _ => _ end) _) (bind (match ?x with _ => _ end) _) => destruct x; cbn [bind] end
  | match goal with |- lift _ (bind (AddObject _ _ _ _ _ _) _) _ => eapply lift_bind; [apply twin_addo; solve [keeps]|pairs] end
  | match goal with |- lift _ (bind (AddToSession _ _ _ _ _ _) _) _ => eapply lift_bind; [apply twin_add; solve [keeps]|pairs] end
  | match goal with |- lift _ (bind (RemoveObject _ _ _ _ _ _) _) _ => eapply lift_bind; [apply twin_remove; solve [keeps]|intros ? ? ?] end
  | match goal with |- lift _ (bind (SetSOPin _ _ _ _) _) _ => eapply lift_bind; [apply twin_SO; solve [keeps]|pairs] end
  | match goal with |- lift _ (bind (SetUserPin _ _ _ _) _) _ => eapply lift_bind; [apply twin_User; solve [keeps]|pairs] end
  | match goal with Q : twin ?x ?y |- context [sess_get ?y _] => rewrite (twin_get _ _ _ Q) end
  | match goal with Q : twin ?x ?y |- context [find_obj ?y _ _] => rewrite (twin_find _ _ _ _ Q) end
  | match goal with Q : twin ?x ?y |- context [run_cont _ ?y _ _] => rewrite (twin_cont _ _ _ _ Q) end
  | match goal with Q : twin ?x ?y |- context [run_init _ ?y _ _ _] => change (run_init w y) with (run_init w x) end
  | match goal with |- context [s_uid (put_sess ?y _)] => change (s_uid (put_sess y _)) with (s_uid y) end ].
Lemma step_twin rnd c a b : twin a b -> (c = OInitialize -> s_count a <> 0%Z) -> lift tw1 (step w rnd a c) (step w rnd b c).
Proof.
  intros T NI. destruct c; cbn [step]; unfold with_sess, with_slot, need_lib, need_rw, with_object.
  - (* Initialize *) unfold Initialize. same T. destruct (Z.eqb_spec (s_count a) 0) as [E|E]; [destruct (NI eq_refl E)|]. destruct T as (ws & A & B). split; [reflexivity|]. exists ws. cbn. rewrite A, B. cbn. split; reflexivity.
  - (* Finalize *) unfold Finalize. same T. destruct (_ =? 0)%Z.
    + eapply lift_bind; [apply twin_store, T|]. intros [c1 a1] [c2 b1] [_ Q]. cbn [snd] in Q. same Q. destruct (final_all _); cbn [bind lift]; try reflexivity. destruct (free_all _); cbn [bind lift]; try reflexivity. split; [reflexivity|]. destruct Q as (ws & A & B). exists ws. cbn. rewrite A, B. cbn. split; reflexivity.
    + split; [reflexivity|]. destruct T as (ws & A & B). exists ws. cbn. rewrite A, B. cbn. split; reflexivity.
  - (* the process ends *) split; [reflexivity|]. destruct T as (ws & A & B). exists ws. cbn. rewrite A, B. cbn. split; reflexivity.
  - unfold InitToken, TokenReset. same T. cbv zeta. go T.
  - unfold InitPIN. same T. go T.
  - unfold SetPIN. same T. cbv zeta. go T.
  - unfold OpenSession. same T. cbv zeta. go T.
  - unfold CloseSession. same T. cbv zeta. cbn [set_sess s_tok]. same T. go T.
  - same T. go T.
  - same T. go T.
  - unfold Login. same T. go T.
  - same T. go T.
  - same T. cbv zeta. go T.
  - unfold Create. same T. go T.
  - unfold Copy. same T. go T.
  - same T. go T.
  - same T. go T.
  - same T. go T.
  - unfold FindInit. same T. cbv zeta. go T.
  - unfold FindNext. same T. cbv zeta. go T.
  - same T. go T.
  - unfold GenKey. same T. go T.
  - unfold GenKeyPair. same T. go T.
  - unfold Wrap. same T. go T.
  - unfold Unwrap. same T. cbv zeta. go T. pose proof (twin_inv _ _ T) as (_ & _ & _ & ->). go T.
  - unfold Derive. same T. go T.
  - same T. go T.
Qed.
End T.

(** ** Runs *)
Definition same_mem (a b : sys) : Prop := s_count b = s_count a /\ s_sess b = s_sess a /\ s_tok b = s_tok a /\ s_uid b = s_uid a.
(** What one process does and is answered in a run. *)
Fixpoint mine (i : nat) (l : list event) : list (op * (nat -> list N)) :=
  match l with [] => [] | (j, c, r) :: l => if j =? i then (c, r) :: mine i l else mine i l end.
Fixpoint told (i : nat) (l : list event) (os : list out) : list out :=
  match l, os with (j, _, _) :: l, o :: os => if j =? i then o :: told i l os else told i l os | _, _ => [] end.
Section R.
Variable w : world.
Lemma step_same rnd c a b a' o : same_mem a b -> (c = OInitialize -> s_count a <> 0%Z) -> step w rnd a c = Ok (a', o) ->
  exists b', step w rnd b c = Ok (b', o) /\ same_mem a' b'.
Proof.
  intros (C & S & T & U) NI E.
  assert (W : twin (s_fs a) (s_fs b) (s_log a) (s_log b) a b).
  { exists []. cbn. rewrite !app_nil_r. split; [destruct a; reflexivity|]. rewrite <- C, <- S, <- T, <- U. destruct b; reflexivity. }
  pose proof (step_twin w _ _ _ _ rnd c a b W NI) as L. rewrite E in L. destruct (step w rnd b c) as [[b' o']| |]; try contradiction. destruct L as [EQ Q]. cbn [fst snd] in EQ, Q. subst o'. exists b'. split; [reflexivity|]. exact (twin_inv _ _ _ _ _ _ Q).
Qed.
Lemma mstep_ok m i c r m1 o : mstep w m (i, c, r) = Ok (m1, o) -> exists s, step w r (on (m_fs m) (m_at m i)) c = Ok (s, o) /\ m_fs m1 = s_fs s /\ m_at m1 i = s /\ forall j, j <> i -> m_at m1 j = m_at m j.
Proof.
  unfold mstep. destruct (step w r _ c) as [[s o']| |]; cbn [bind]; try discriminate. intros E. injection E as <- <-. exists s. cbn. rewrite Nat.eqb_refl. repeat split. intros j NE. destruct (Nat.eqb_spec j i); [contradiction|reflexivity].
Qed.
Lemma alone_run i l : forall m m' os a, mrun w m l = Ok (m', os) -> same_mem (m_at m i) a -> (forall c r, In (c, r) (mine i l) -> c <> OInitialize) ->
  exists s, run w a (mine i l) = Ok (s, told i l os) /\ same_mem (m_at m' i) s.
Proof.
  induction l as [|[[j c] r] l IH]; cbn [mrun mine told]; intros m m' os a H A NI.
  - injection H as <- <-. exists a. split; [reflexivity|exact A].
  - destruct (mstep w m (j, c, r)) as [[m1 o]| |] eqn:E; cbn [bind] in H; try discriminate. destruct (mrun w m1 l) as [[m2 os']| |] eqn:E2; cbn [bind] in H; try discriminate. injection H as <- <-.
    destruct (mstep_ok _ _ _ _ _ _ E) as (s & Q & _ & M & K). destruct (Nat.eqb_spec j i) as [->|NE].
    + destruct (step_same r c (on (m_fs m) (m_at m i)) a s o) as (b & B & SM); [exact A|intros ->; destruct (NI OInitialize r (or_introl eq_refl) eq_refl)|exact Q|].
      cbn [run]. rewrite B. cbn [bind]. destruct (IH m1 m2 os' b E2) as (s' & R & F); [rewrite M; exact SM|intros; apply (NI c0 r0); right; assumption|].
      rewrite R. exists s'. split; [reflexivity|exact F].
    + apply (IH m1 m2 os' a E2); [rewrite (K i ltac:(congruence)); exact A|exact NI].
Qed.

(** Calls that write no file, whatever the state. *)
Definition silent (c : op) : bool :=
  match c with
  | OFinalize | OInitToken _ _ _ | OInitPIN _ _ | OSetPIN _ _ _ | OCreateObject _ _ | OCopyObject _ _ _ | ODestroyObject _ _
  | OGenerateKey _ _ _ _ | OGenerateKeyPair _ _ _ _ _ | OUnwrapKey _ _ _ _ _ _ | ODeriveKey _ _ _ _ _ => false
  | _ => true
  end.
Definition keeps_fs (a : sys) (r : res (sys * out)) : Prop := match r with Ok (s, _) => s_fs s = s_fs a | _ => True end.
Ltac quietly := repeat first
  [ match goal with |- keeps_fs _ (Ok _) => reflexivity end | match goal with |- keeps_fs _ (rv_ _ _) => reflexivity end
  | exact Logic.I
  | match goal with |- keeps_fs _ (bind ?x _) => destruct x as [?|?|?]; cbn [bind] end
  | match goal with |- keeps_fs _ (match ?x with _ => _ end) => destruct x end ].
Lemma silent_fs rnd c a s o : silent c = true -> step w rnd a c = Ok (s, o) -> s_fs s = s_fs a.
Proof.
  intros SI E. enough (K : keeps_fs a (step w rnd a c)) by (rewrite E in K; exact K). clear E.
  destruct c; try discriminate SI; cbn [step]; unfold with_sess, with_slot, need_lib, need_rw, with_object, Initialize, OpenSession, CloseSession, Login, FindInit, FindNext, Wrap; cbv zeta; quietly.
Qed.
Lemma on_at d a : on d a = mkSys (s_count a) (s_sess a) (s_tok a) d (s_log a) (s_uid a).
Proof. reflexivity. Qed.
Lemma silent_run i l : forall m m' os a, mrun w m l = Ok (m', os) -> on (m_fs m) (m_at m i) = a -> (forall j c r, In (j, c, r) l -> j <> i -> silent c = true) ->
  exists s, run w a (mine i l) = Ok (s, told i l os) /\ on (m_fs m') (m_at m' i) = s.
Proof.
  induction l as [|[[j c] r] l IH]; cbn [mrun mine told]; intros m m' os a H A NI.
  - injection H as <- <-. exists a. split; [reflexivity|exact A].
  - destruct (mstep w m (j, c, r)) as [[m1 o]| |] eqn:E; cbn [bind] in H; try discriminate. destruct (mrun w m1 l) as [[m2 os']| |] eqn:E2; cbn [bind] in H; try discriminate. injection H as <- <-.
    destruct (mstep_ok _ _ _ _ _ _ E) as (s & Q & F & M & K). destruct (Nat.eqb_spec j i) as [->|NE].
    + rewrite <- A. cbn [run]. rewrite Q. cbn [bind]. destruct (IH m1 m2 os' s E2) as (s' & R & FF); [rewrite F, M; destruct s; reflexivity|intros j c0 r0 I; apply (NI j c0 r0); right; exact I|].
      rewrite R. exists s'. split; [reflexivity|exact FF].
    + apply (IH m1 m2 os' a E2); [|intros j0 c0 r0 I; apply (NI j0 c0 r0); right; exact I]. rewrite F, (K i ltac:(congruence)). rewrite (silent_fs _ _ _ _ _ (NI j c r (or_introl eq_refl) NE) Q). exact A.
Qed.
End R.
