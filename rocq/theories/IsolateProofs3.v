(** The history without the calls that some sessions make for themselves. *)
From Verif Require Import Base Ops OpsSpec OpsProofs Object ObjectProofs Store Sys SysProofs SysProofs2 SysProofs3 SysProofs4 UseProofs Isolate IsolateProofs IsolateProofs2.

Lemma plain_dec t : plain t \/ ~ plain t.
Proof.
  unfold plain. induction t as [|a t IH]; [left; intros a []|].
  assert (D : (a_type a = CKA_TOKEN -> a_val a = AV [0%N]) \/ ~ (a_type a = CKA_TOKEN -> a_val a = AV [0%N])).
  { destruct (Z.eq_dec (a_type a) CKA_TOKEN) as [E|E]; [|left; intros J; contradiction]. assert (V : {a_val a = AV [0%N]} + {a_val a <> AV [0%N]}) by (repeat decide equality). destruct V as [V|V]; [left; auto|right; auto]. }
  destruct D as [D|D]; [|right; intros K; apply D; apply (K a); left; reflexivity].
  destruct IH as [IH|IH]; [left; intros b [<-|B]; auto|right; intros K; apply IH; intros b B; apply (K b); right; exact B].
Qed.
Lemma own_dec c : own c \/ ~ own c.
Proof.
  destruct c; cbn [own]; try (left; exact Logic.I); try (right; intros []; fail); try apply plain_dec; unfold small; try lia.
  destruct (plain_dec tpub) as [D1|D1]; [|right; intros [K _]; auto]. destruct (plain_dec tpriv) as [D2|D2]; [left; auto|right; intros [_ K]; auto].
Qed.
Section A.
Variable A : Z -> bool.
Variable w : world.
Lemma own_objop c : own c -> exists h, objop c = Some h /\ through c = Some h.
Proof. destruct c; cbn; intros K; try contradiction; eauto. Qed.
Lemma mask_uid s n : mask A (set_uid s n) = set_uid (mask A s) n.
Proof. reflexivity. Qed.
Lemma answers_skip s n l s' os : (s_uid s <= n)%nat -> answers w (set_uid s n) l s' os -> answers w s l s' os.
Proof.
  intros L H. remember (set_uid s n) as s1. destruct H as [s1 m Lm|s1 m c rnd l s2 o s' os Lm St R]; subst s1.
  - change (set_uid (set_uid s n) m) with (set_uid s m). constructor. cbn in Lm. lia.
  - change (set_uid (set_uid s n) m) with (set_uid s m) in St. econstructor; [|exact St|exact R]. cbn in Lm. lia.
Qed.
Lemma set_uid_id s : set_uid s (s_uid s) = s.
Proof. destruct s; reflexivity. Qed.
Theorem run_without l : forall s s' os, inv s -> apart s -> run w s l = Ok (s', os) ->
  (forall c rnd, In (c, rnd) l -> in_set A c = true -> own c \/ shared c) ->
  exists l' os', left_out A l os l' os' /\ answers w (mask A s) l' (mask A s') os'.
Proof.
  induction l as [|[c rnd] l IH]; intros s s' os I P R F; cbn [run] in R.
  - injection R as <- <-. exists [], []. split; [constructor|]. rewrite <- (set_uid_id (mask A s)) at 2. constructor. lia.
  - destruct (step w rnd s c) as [[s1 o]| |] eqn:St; cbn [bind] in R; try discriminate. destruct (run w s1 l) as [[s2 os2]| |] eqn:R2; cbn [bind] in R; try discriminate. injection R as <- <-.
    destruct (IH s1 s2 os2) as (l' & os' & Lo & An); [eapply step_inv; eassumption|eapply step_apart; eassumption|exact R2|intros c0 r0 J; apply (F c0 r0); right; exact J|].
    assert (D : in_set A c = true /\ own c \/ ~ (in_set A c = true /\ own c)).
    { destruct (in_set A c); [|right; intros [? _]; discriminate]. destruct (own_dec c); [left; auto|right; intros [_ ?]; auto]. }
    destruct D as [[Ac Ow]|D].
    + exists l', os'. split; [constructor; assumption|]. destruct (own_objop c Ow) as (h & O & T). unfold in_set in Ac. rewrite T in Ac.
      destruct (own_step A w rnd s c h s1 o I O Ac Ow St) as [M L]. rewrite M in An. eapply answers_skip; [|exact An]. exact L.
    + exists ((c, rnd) :: l'), (o :: os'). split; [constructor; assumption|]. apply (an_call w (mask A s) (s_uid (mask A s)) c rnd l' (mask A s1)); [lia| |exact An]. rewrite set_uid_id.
      destruct (objop c) as [h|] eqn:O; [|apply step_common; assumption].
      assert (E : step w rnd (mask A s) c = lift A (step w rnd s c)); [|rewrite E, St; reflexivity].
      destruct (A h) eqn:Ah.
      * assert (T : in_set A c = true) by (unfold in_set; destruct c; try discriminate O; cbn; injection O as ->; exact Ah).
        destruct (F c rnd (or_introl eq_refl) T) as [Ow|Sh]; [exfalso; apply D; auto|]. eapply step_tok; eassumption.
      * apply (step_out A w rnd s c h I O Ah). intros x G. apply sess_get_in in G as (X & Ex & _). apply apart_stranger; [exact P|exact X|congruence].
Qed.
End A.
