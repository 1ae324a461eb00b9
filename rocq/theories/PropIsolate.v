(** C107: sessions do not disturb one another. *)
From Verif Require Import Base Ops OpsSpec Object Store Sys SysProofs SysProofs4 ToyEnv ToySys PropObject PropSys1 PropSys2 PropKeys PropInUse PropFind ObjFrame Isolate IsolateProofs IsolateProofs2 IsolateProofs3.
From Coq Require Import List.
Import ListNotations.
Open Scope nat_scope.
Open Scope list_scope.

(** Any history from the start of the process, any set [A] of sessions whose calls are each either
    of the sessions' own (operations, searches, session objects) or of the token. Leaving out all of
    the former, every remaining call answers exactly as it did; the token, the files and all the other
    sessions end in the same state, and those in [A] are as they were opened. *)
Theorem C107_isolated w d A l s os : run w (sys0 d) l = Ok (s, os) ->
  (forall c rnd, In (c, rnd) l -> in_set A c = true -> own c \/ shared c) ->
  exists l' os' s1, left_out A l os l' os' /\ answers w (sys0 d) l' s1 os' /\
    s_tok s1 = s_tok s /\ s_fs s1 = s_fs s /\ s_log s1 = s_log s /\ s_count s1 = s_count s /\
    s_sess s1 = List.map (fun x => if A (ss_h x) then mkS (ss_h x) (ss_use x) [] false [] 0 op_zero else x) (s_sess s).
Proof.
  intros R F. destruct (run_without A w l (sys0 d) s os (inv0 d) (apart0 d) R F) as (l' & os' & Lo & An).
  exists l', os', (Isolate.mask A s). split; [exact Lo|]. split; [exact An|]. repeat split.
Qed.
Print Assumptions C107_isolated.

(** One session among others: what it is told, and what it holds at the end, is what it would be if no
    other session made calls of its own. *)
Theorem C107_alone w d h l s os x : run w (sys0 d) l = Ok (s, os) ->
  (forall c rnd h', In (c, rnd) l -> through c = Some h' -> h' <> h -> own c \/ shared c) ->
  In x (s_sess s) -> ss_h x = h ->
  exists l' os' s1, left_out (fun h' => negb (h' =? h)%Z) l os l' os' /\ answers w (sys0 d) l' s1 os' /\
    (forall c rnd, In (c, rnd) l' -> through c = Some h \/ through c = None \/ ~ own c) /\ In x (s_sess s1).
Proof.
  intros R F X E. destruct (C107_isolated w d (fun h' => negb (h' =? h)%Z) l s os R) as (l' & os' & s1 & Lo & An & _ & _ & _ & _ & Es).
  { intros c rnd J I. unfold in_set in I. destruct (through c) as [h'|] eqn:T; [|discriminate]. apply (F c rnd h' J T). destruct (Z.eqb_spec h' h); [discriminate|assumption]. }
  exists l', os', s1. split; [exact Lo|]. split; [exact An|]. split.
  - clear - Lo. induction Lo; [intros ? ? []| exact IHLo|]. intros c0 r0 [Q|Q]; [|exact (IHLo c0 r0 Q)]. injection Q as <- <-.
    unfold in_set in H. destruct (through c) as [h'|]; [|auto]. destruct (Z.eqb_spec h' h) as [Q|N]; [left; congruence|right; right]. intros O. apply H. split; [reflexivity|exact O].
  - rewrite Es. apply in_map_iff. exists x. rewrite E, Z.eqb_refl. split; [reflexivity|exact X].
Qed.
Print Assumptions C107_alone.

(** Two sessions that create, search and encrypt in turns; the second one alone is told the same. *)
Definition both_open : list op := setup ++ [OOpenSession 1 RW; OOpenSession 1 RW].
Definition own_calls (h : Z) (m : list N) : list op :=
  [OCreateObject h aes_tmpl; OCreateObject h priv_tmpl; OFindObjectsInit h []; OCrypto h (KEncryptInit M_AES_GCM gcm_iv 0) 1; OFindObjects h 5;
   OCrypto h (KEncryptUpdate m (Buf 64)) 0; OFindObjectsFinal h; OCrypto h (KEncryptFinal (Buf 64)) 0; OCreateObject h aes_tmpl; ODestroyObject h 3].
Fixpoint in_turns (a b : list op) : list op := match a, b with x :: a', y :: b' => x :: y :: in_turns a' b' | _, _ => a ++ b end.
Fixpoint seconds {T : Type} (l : list T) : list T := match l with _ :: y :: r => y :: seconds r | _ => [] end.
Definition mixed : list op := both_open ++ in_turns (own_calls H1 [1; 2; 3]%N) (own_calls H2 [9]%N).
Definition single : list op := both_open ++ own_calls H2 [9]%N.
Example mixed_ok :
  rvs mixed = repeat CKR_OK (length mixed) /\
  seconds (skipn (length both_open) (outs mixed)) = skipn (length both_open) (outs single) /\
  skipn (length both_open) (outs single) <> seconds (skipn (length both_open) (outs (both_open ++ in_turns (own_calls H1 [1; 2; 3]%N) (own_calls H2 [8]%N)))) /\
  (forall c, In c mixed -> in_set (fun h => h =? H1)%Z c = true -> own c \/ shared c) /\
  List.map (fun x => length (ss_objs x)) (s_sess (after mixed)) = [2; 2].
Proof.
  split; [vm_compute; reflexivity|]. split; [vm_compute; reflexivity|]. split; [vm_compute; discriminate|]. split; [|vm_compute; reflexivity].
  intros c J _. vm_compute in J.
  repeat (destruct J as [<-|J];
    [first [right; reflexivity|left; exact Logic.I|left; intros a Ja T; cbn in Ja; repeat (destruct Ja as [<-|Ja]; [discriminate T|]); destruct Ja|left; split; [discriminate|reflexivity]]|]).
  destruct J.
Qed.

(** ** C108: one handle, one object, in every session *)
(** PKCS #11: all sessions of an application have access to the session objects that any of them
    created. *)
Definition is_open (s : sys) (h : Z) : Prop := (0 < s_count s)%Z /\ sess_get s h <> None.
Definition C108_claim (w : world) : Prop := forall d s h1 h2 ho t t1 rnd,
  reach w (sys0 d) s -> is_open s h1 -> is_open s h2 ->
  step w rnd s (OGetAttributeValue h1 ho t) = Ok (s, OutT CKR_OK t1) ->
  step w rnd s (OGetAttributeValue h2 ho t) = Ok (s, OutT CKR_OK t1).
Definition label_of (n : N) : template := [mkA CKA_LABEL (AV [n])].
Definition two_owners : list op := both_open ++ [OCreateObject H1 (label_of 1 ++ aes_tmpl); OCreateObject H2 (label_of 2 ++ aes_tmpl)].
Theorem C108_refuted : ~ C108_claim tw.
Proof.
  intros C. specialize (C nofiles (after two_owners) H1 H2 1%Z [mkA CKA_LABEL (AV [0%N])]). specialize (C [mkA CKA_LABEL (AV [1%N])] (rnd 0)).
  assert (R : reach tw (sys0 nofiles) (after two_owners)) by (apply after_reach; vm_compute; exact Logic.I).
  assert (O1 : is_open (after two_owners) H1) by (split; [reflexivity|vm_compute; discriminate]).
  assert (O2 : is_open (after two_owners) H2) by (split; [reflexivity|vm_compute; discriminate]).
  specialize (C R O1 O2). clear R O1 O2. vm_compute in C. specialize (C eq_refl). discriminate C.
Qed.
Print Assumptions C108_refuted.
(** With a single owner, the other session is told that there is no such object. *)
Example one_owner : skipn 9 (rvs (both_open ++ [OCreateObject H1 aes_tmpl; OGetAttributeValue H1 1 [mkA CKA_CLASS (ULONG 0)]; OGetAttributeValue H2 1 [mkA CKA_CLASS (ULONG 0)]; OCrypto H2 (KEncryptInit M_AES_GCM gcm_iv 0) 1])) =
  [CKR_OK; CKR_OK; CKR_OBJECT_HANDLE_INVALID; CKR_OBJECT_HANDLE_INVALID].
Proof. vm_compute. reflexivity. Qed.

(** Handles of token objects mean the same in all sessions: attributes read, objects destroyed, attributes
    changed, and what a search over the token finds, do not depend on the session that asks. *)
Theorem C108_partial w s h1 h2 ho t rnd : is_open s h1 -> is_open s h2 -> large ho ->
  step w rnd s (OGetAttributeValue h1 ho t) = step w rnd s (OGetAttributeValue h2 ho t) /\
  (forall x y, sess_get s h1 = Some x -> sess_get s h2 = Some y -> ss_use x = SESSION_RW -> ss_use y = SESSION_RW ->
     step w rnd s (ODestroyObject h1 ho) = step w rnd s (ODestroyObject h2 ho) /\
     step w rnd s (OSetAttributeValue h1 ho t) = step w rnd s (OSetAttributeValue h2 ho t)).
Proof.
  intros [N O1] [_ O2] L. apply large_token in L. cbn [step]. unfold with_sess, need_lib, with_object, need_rw. assert (Q : (0 <? s_count s)%Z = true) by lia. rewrite Q.
  destruct (sess_get s h1) as [x|]; [|congruence]. destruct (sess_get s h2) as [y|]; [|congruence]. assert (F : find_obj s x ho = find_obj s y ho) by (unfold find_obj; rewrite L; reflexivity). rewrite F.
  split; [reflexivity|]. intros x0 y0 E1 E2 Ux Uy. injection E1 as <-. injection E2 as <-. unfold is_rw. rewrite Ux, Uy. split; [|reflexivity].
  destruct (find_obj s y ho) as [o|]; [|reflexivity]. unfold RemoveObject. rewrite L. reflexivity.
Qed.
Print Assumptions C108_partial.
Lemma search_alike w rnd s h x t n s1 o1 s1' r1 : (0 < s_count s)%Z -> uniq (s_sess s) -> sess_get s h = Some x -> ss_objs x = [] -> ss_find x = false ->
  step w rnd s (OFindObjectsInit h t) = Ok (s1, o1) -> step w rnd s1 (OFindObjects h n) = Ok (s1', r1) ->
  let nobody := mkS 0 0 [] false [] 0 op_zero in
  exists rv l, o1 = OutRv rv /\ r1 = OutHs CKR_OK (firstn (Z.to_nat (i32 n)) l) /\
    (if find_last t CKA_TOKEN then match tmpl_token t with Some b => Find w (s_tok s) nobody (negb (b =? 0)%N) t = Ok l /\ rv = CKR_OK | None => l = [] /\ rv = CKR_ATTRIBUTE_VALUE_INVALID end
     else Find w (s_tok s) nobody true t = Ok l /\ rv = CKR_OK).
Proof.
  intros N U G X Fx A B nobody. cbn [step] in A, B. unfold with_sess, need_lib in A, B. assert (Q : (0 <? s_count s)%Z = true) by lia. rewrite Q, G in A. unfold FindInit in A. rewrite Fx in A. cbv zeta in A.
  assert (E : forall b, Find w (s_tok s) x b t = Find w (s_tok s) nobody b t) by (intros b; unfold Find; rewrite X; reflexivity).
  assert (K : forall l, s1 = put_sess s (set_find x true l 0) -> r1 = OutHs CKR_OK (firstn (Z.to_nat (i32 n)) l)).
  { intros l ->. change (s_count (put_sess s (set_find x true l 0))) with (s_count s) in B. rewrite Q in B. rewrite (sess_get_put s x (set_find x true l 0) h U G eq_refl eq_refl) in B. unfold FindNext in B. injection B as _ <-. reflexivity. }
  destruct (find_last t CKA_TOKEN); [destruct (tmpl_token t) as [b|]|]; rewrite ?E in A.
  - destruct (Find _ _ _ _ _) as [l| |]; cbn [bind] in A; try discriminate. unfold rv_ in A. injection A as A1 <-. exists CKR_OK, l. repeat split. apply K. symmetry. exact A1.
  - unfold rv_ in A. injection A as A1 <-. exists CKR_ATTRIBUTE_VALUE_INVALID, []. repeat split. apply K. symmetry. exact A1.
  - destruct (Find _ _ _ _ _) as [l| |]; cbn [bind] in A; try discriminate. unfold rv_ in A. injection A as A1 <-. exists CKR_OK, l. repeat split. apply K. symmetry. exact A1.
Qed.
Theorem C108_found_partial w d s h1 h2 x y t n rnd s1 s2 s1' s2' o1 o2 r1 r2 : reach w (sys0 d) s -> (0 < s_count s)%Z ->
  sess_get s h1 = Some x -> sess_get s h2 = Some y -> ss_objs x = [] -> ss_objs y = [] -> ss_find x = false -> ss_find y = false ->
  step w rnd s (OFindObjectsInit h1 t) = Ok (s1, o1) -> step w rnd s1 (OFindObjects h1 n) = Ok (s1', r1) ->
  step w rnd s (OFindObjectsInit h2 t) = Ok (s2, o2) -> step w rnd s2 (OFindObjects h2 n) = Ok (s2', r2) -> o1 = o2 /\ r1 = r2.
Proof.
  intros R N G1 G2 X Y Fx Fy A1 B1 A2 B2. pose proof (inv_uniq s (reach_inv w d s R)) as U.
  destruct (search_alike w rnd s h1 x t n s1 o1 s1' r1 N U G1 X Fx A1 B1) as (rv & l & -> & -> & E). destruct (search_alike w rnd s h2 y t n s2 o2 s2' r2 N U G2 Y Fy A2 B2) as (rv' & l' & -> & -> & E').
  destruct (find_last t CKA_TOKEN); [destruct (tmpl_token t) as [b|]|]; destruct E as [E F], E' as [E' F']; (rewrite E in E' || subst l l'); subst rv rv'; try (injection E' as <-); split; reflexivity.
Qed.
Print Assumptions C108_found_partial.
Definition on_tok (n : N) : template := mkA CKA_TOKEN TRUE :: label_of n ++ aes_tmpl.
Definition token_seen : list op := both_open ++ [OLogin H1 CKU_USER upin (Some 9%Z); OCreateObject H1 (on_tok 1)].
Example token_seen_ok :
  rvs token_seen = repeat CKR_OK 11 /\
  skipn 11 (outs (token_seen ++ [OFindObjectsInit H1 (label_of 1); OFindObjects H1 3; OFindObjectsInit H2 (label_of 1); OFindObjects H2 3])) =
    [OutRv CKR_OK; OutHs CKR_OK [2 ^ 28 + 1]%Z; OutRv CKR_OK; OutHs CKR_OK [2 ^ 28 + 1]%Z] /\
  large (2 ^ 28 + 1) /\ is_open (after token_seen) H1 /\ is_open (after token_seen) H2.
Proof. repeat split; vm_compute; try reflexivity; discriminate. Qed.
