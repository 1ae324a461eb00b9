(** C105: every object made is freed, and freed once. *)
From Coq Require Import Permutation.
From Verif Require Import Base Ops Object Store Sys SysProofs SysProofs2 SysProofs4 ToyEnv ToySys Heap HeapProofs PropObject PropStore PropKeys.
From Coq Require Import List Lia ZArith.
Import ListNotations.
Open Scope list_scope.

(** ** Specification *)
(** When C_Finalize has been called as often as C_Initialize, nothing is allocated. *)
Definition C105_claim (w : world) : Prop := forall d s hp h, hreach w d s hp h -> s_count s = 0%Z -> hp = [].
(** The objects allocated are those in the lists. *)
Definition C105_lists_claim (w : world) : Prop := forall d s hp h, hreach w d s hp h -> Permutation hp (uids (live s)).

Section W.
Variable w : world.
Lemma hreach_ok d s hp h : hreach w d s hp h -> inv s /\ low s /\ exists lost, Permutation hp (lost ++ uids (live s)) /\ length lost <= length (filter may_lose h).
Proof.
  induction 1 as [|s hp h rnd c s' o hp' R (V & L & lost & P & B) St M]; [split; [apply inv0|]; split; [intros _; reflexivity|]; exists []; split; [constructor|cbn; lia]|].
  split; [exact (step_inv w rnd s c s' o V St)|]. split; [exact (low_step w rnd s c s' o V L St)|]. rewrite filter_app, app_length.
  destruct (match c with ORestart => true | _ => false end) eqn:RS.
  - destruct c; try discriminate RS. cbn in M, St. injection M as <-. injection St as <- <-. exists []. split; [constructor|cbn; lia].
  - assert (NR : c <> ORestart) by (intros ->; discriminate). destruct (step_mv w rnd s c s' o V L NR St) as (l & Mv & Bl). unfold heap_step in M. replace (match c with ORestart => Some [] | _ => heap_run hp (trace w rnd s c) end) with (heap_run hp (trace w rnd s c)) in M by (destruct c; congruence).
    destruct (Mv hp lost P) as (hp2 & E & P2). rewrite M in E. injection E as <-. exists (lost ++ l). rewrite <- app_assoc. split; [exact P2|]. rewrite app_length. cbn [filter]. destruct (may_lose (c, o)); cbn [length] in *; lia.
Qed.
End W.

(** ** No object is freed twice, and nothing is freed that was not allocated: whatever
    the history, the frees of the next call find their objects. Missing: a call whose
    outcome is undefined (C_GenerateKeyPair freeing the listed public key: C16). *)
Theorem C105_free_partial w d s hp h rnd c s' o : hreach w d s hp h -> step w rnd s c = Ok (s', o) -> exists hp', heap_step w rnd s hp c = Some hp'.
Proof.
  intros R St. destruct (hreach_ok w d s hp h R) as (V & L & lost & P & _). destruct (match c with ORestart => true | _ => false end) eqn:RS; [destruct c; try discriminate RS; eexists; reflexivity|].
  assert (NR : c <> ORestart) by (intros ->; discriminate). destruct (step_mv w rnd s c s' o V L NR St) as (l & Mv & _). destruct (Mv hp lost P) as (hp' & E & _). exists hp'. unfold heap_step. destruct c; solve [exact E|congruence].
Qed.
Print Assumptions C105_free_partial.
(** Nothing is lost but by C_DeriveKey calls that get a secret and give no handle. *)
Theorem C105_partial w d s hp h : hreach w d s hp h -> (forall co, In co h -> may_lose co = false) -> Permutation hp (uids (live s)) /\ ((s_count s <= 0)%Z -> hp = []).
Proof.
  intros R N. destruct (hreach_ok w d s hp h R) as (V & L & lost & P & B). assert (F : filter may_lose h = []).
  { clear -N. induction h as [|a r IH]; [reflexivity|]. cbn. rewrite (N a (or_introl eq_refl)). apply IH. intros co I. apply N. right. exact I. }
  rewrite F in B. destruct lost; [|cbn in B; lia]. split; [exact P|]. intros C. rewrite (L C) in P. apply Permutation_sym, Permutation_nil in P. exact P.
Qed.
Print Assumptions C105_partial.
(** Each of those loses at most one object, and every listed object is allocated. *)
Theorem C105_bound_partial w d s hp h : hreach w d s hp h -> (length hp <= length (live s) + length (filter may_lose h))%nat /\ (forall ob, In ob (live s) -> In (o_uid ob) hp) /\ NoDup (uids (live s)).
Proof.
  intros R. destruct (hreach_ok w d s hp h R) as (V & L & lost & P & B). split; [|split].
  - rewrite (Permutation_length P), app_length. unfold uids. rewrite map_length. lia.
  - intros ob I. apply (Permutation_in _ (Permutation_sym P)). apply in_or_app. right. apply in_map. exact I.
  - apply V.
Qed.
Print Assumptions C105_bound_partial.

(** ** Histories that lose objects *)
Fixpoint heap_hist (w : world) (s : sys) (hp : list nat) (h : list (op * out)) (l : list (op * (nat -> list N))) : option (sys * list nat * list (op * out)) :=
  match l with
  | [] => Some (s, hp, h)
  | (c, rnd) :: r => match step w rnd s c, heap_step w rnd s hp c with Ok (s', o), Some hp' => heap_hist w s' hp' (h ++ [(c, o)]) r | _, _ => None end
  end.
Lemma heap_hist_reach w d l : forall s hp h s' hp' h', hreach w d s hp h -> heap_hist w s hp h l = Some (s', hp', h') -> hreach w d s' hp' h'.
Proof.
  induction l as [|[c rnd] r IH]; intros s hp h s' hp' h' R E; cbn [heap_hist] in E; [injection E as <- <- <-; exact R|].
  destruct (step w rnd s c) as [[s1 o]| |] eqn:St; try discriminate. destruct (heap_step w rnd s hp c) as [hp1|] eqn:M; [|discriminate]. eapply IH; [eapply hreach_step; eassumption|exact E].
Qed.
Definition told (l : list op) : option (list nat * Z * list Z) :=
  match heap_hist tw (sys0 nofiles) [] [] (numbered 1 l) with Some (s, hp, h) => Some (hp, s_count s, map (fun co => out_rv (snd co)) h) | None => None end.
Lemma told_reach l hp n rvs : told l = Some (hp, n, rvs) -> exists s h, hreach tw nofiles s hp h /\ s_count s = n.
Proof.
  unfold told. destruct (heap_hist _ _ _ _ _) as [[[s hp'] h]|] eqn:E; [|discriminate]. intros [= <- <- _]. exists s, h. split; [|reflexivity]. eapply heap_hist_reach; [apply hreach_0|exact E].
Qed.
(** The session has 6 objects; two derived keys fill it up and the third one is lost with
    the key in it; after that a template of a kind that takes no secret loses another,
    with CKR_OK. Both are still allocated after C_Finalize. *)
Definition derive (t : template) : op := ODeriveKey H2 D_DH 6 (Some (repeat 9%N 16)) t.
Definition losing : list op := idle_keys ++ [derive gen_tmpl; derive gen_tmpl; derive gen_tmpl; derive unlock_tmpl; OFinalize].
Example losing_told : told losing = Some ([9; 8]%nat, 0%Z, repeat CKR_OK 14 ++ [CKR_FUNCTION_FAILED; CKR_OK; CKR_OK]).
Proof. vm_compute. reflexivity. Qed.
Theorem C105_refuted : ~ C105_claim tw.
Proof. intros C. destruct (told_reach _ _ _ _ losing_told) as (s & h & R & N). discriminate (C _ _ _ _ R N). Qed.
Print Assumptions C105_refuted.
Theorem C105_lists_refuted : ~ C105_lists_claim tw.
Proof.
  intros C. destruct (told_reach _ _ _ _ losing_told) as (s & h & R & N). pose proof (hreach_ok tw _ _ _ _ R) as (_ & L & _). specialize (C _ _ _ _ R). rewrite (L ltac:(lia)) in C. apply Permutation_length in C. discriminate C.
Qed.
Print Assumptions C105_lists_refuted.

(** *** The hypotheses are met *)
(** Objects of both kinds made, copied, refused, destroyed, their session closed, the
    token made anew, the library ended. *)
Definition tidy : list op := setup ++ [OOpenSession 1 RW; userlogin upin; OCreateObject H2 (tokenly aes_tmpl); OCreateObject H2 aes_tmpl; OCreateObject H2 [];
  OCopyObject H2 (2^28 + 1) []; OGenerateKeyPair H2 KP_RSA [] [] (Some (GRsa (mkRsa 33 7 3 11 1 7 2 3))); ODestroyObject H2 1; OCloseSession H2].
Example C105_case : told tidy = Some ([0]%nat, 1%Z, repeat CKR_OK 11 ++ [CKR_TEMPLATE_INCOMPLETE] ++ repeat CKR_OK 4).
Proof. vm_compute. reflexivity. Qed.
Example C105_end_case : told (tidy ++ [OFinalize]) = Some ([], 0%Z, repeat CKR_OK 11 ++ [CKR_TEMPLATE_INCOMPLETE] ++ repeat CKR_OK 5) /\
  told (tidy ++ [OFinalize; OInitialize; OInitToken 1 sopin lab]) = Some ([], 1%Z, repeat CKR_OK 11 ++ [CKR_TEMPLATE_INCOMPLETE] ++ repeat CKR_OK 7).
Proof. vm_compute. split; reflexivity. Qed.
