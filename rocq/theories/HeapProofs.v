(** The heap holds the objects in the lists, and those C_DeriveKey lost. *)
From Coq Require Import Permutation.
From Verif Require Import Base Ops Object ObjectProofs Store Sys SysProofs SysProofs2 SysProofs3 SysProofs4 ObjFrame PropSys3 Heap.
From Coq Require Import List Lia ZArith.
Import ListNotations.
Open Scope nat_scope.
Open Scope list_scope.

Lemma give_back_perm u hp l : Permutation hp (u :: l) -> exists hp', give_back u hp = Some hp' /\ Permutation hp' l.
Proof.
  revert l. induction hp as [|v r IH]; intros l P; [destruct (Permutation_nil_cons P)|]. cbn [give_back].
  destruct (Nat.eqb_spec v u) as [->|NE]; [exists r; split; [reflexivity|exact (Permutation_cons_inv P)]|].
  assert (I : In u r) by (destruct (Permutation_in _ (Permutation_sym P) (or_introl eq_refl)) as [E|E]; [contradiction|exact E]).
  apply in_split in I as (a & b & ->). destruct (IH (a ++ b)) as (r' & -> & Q); [symmetry; apply Permutation_middle|].
  exists (v :: r'). split; [reflexivity|]. apply (Permutation_cons_inv (a := u)). rewrite <- P, perm_swap. apply perm_skip. rewrite Q. apply Permutation_middle.
Qed.
Lemma heap_app hp a b : heap_run hp (a ++ b) = match heap_run hp a with Some hp' => heap_run hp' b | None => None end.
Proof. revert hp. induction a as [|[u|u] a IH]; intros hp; cbn [app heap_run]; [reflexivity|apply IH|]. destruct (give_back u hp); [apply IH|reflexivity]. Qed.
Lemma heap_frees hp us l : Permutation hp (us ++ l) -> exists hp', heap_run hp (map Free us) = Some hp' /\ Permutation hp' l.
Proof.
  revert hp. induction us as [|u us IH]; intros hp P; cbn [map heap_run app] in *; [exists hp; auto|].
  destruct (give_back_perm _ _ _ P) as (hp1 & -> & Q). exact (IH _ Q).
Qed.
Lemma heap_allocs us : forall hp, heap_run hp (map Alloc us) = Some (rev us ++ hp).
Proof. induction us as [|u us IH]; intros hp; cbn [map heap_run rev]; [reflexivity|]. rewrite IH, <- app_assoc. reflexivity. Qed.

(** The trace takes the heap from one state to the other, losing some objects. *)
Definition moves (s s' : sys) (tr : list mop) (lost : list nat) : Prop := forall hp L, Permutation hp (L ++ uids (live s)) ->
  exists hp', heap_run hp tr = Some hp' /\ Permutation hp' (L ++ lost ++ uids (live s')).
Lemma mv_same s s' : uids (live s') = uids (live s) -> moves s s' [] [].
Proof. intros E hp L P. exists hp. cbn. rewrite E. auto. Qed.
Lemma mv_frees s s' us : Permutation (uids (live s)) (us ++ uids (live s')) -> moves s s' (map Free us) [].
Proof. intros E hp L P. apply heap_frees. cbn. rewrite P, E, Permutation_app_swap_app. reflexivity. Qed.
Lemma mv_back s s' u : uids (live s') = uids (live s) -> moves s s' (added u false) [].
Proof. intros E hp L P. cbn. rewrite Nat.eqb_refl. exists hp. rewrite E. auto. Qed.
Lemma mv_new s s' u : Permutation (uids (live s')) (u :: uids (live s)) -> moves s s' [Alloc u] [].
Proof. intros E hp L P. cbn. exists (u :: hp). split; [reflexivity|]. rewrite E, P. apply Permutation_middle. Qed.
Lemma mv_lost s s' u : uids (live s') = uids (live s) -> moves s s' [Alloc u] [u].
Proof. intros E hp L P. cbn. exists (u :: hp). split; [reflexivity|]. rewrite E, P. apply Permutation_middle. Qed.
Lemma all_free_map l : all_free l = map Free (uids l).
Proof. unfold all_free, uids. rewrite map_map. reflexivity. Qed.

(** ** Sessions *)
Definition idle_empty (l : list session) : Prop := forall x, In x l -> in_use x = false -> ss_objs x = [].
Lemma sess_ok_idle l : sess_ok l -> idle_empty l.
Proof.
  intros (_ & _ & F) x I U. rewrite Forall_forall in F. destruct (F x I) as [_ E]. apply E. unfold in_use, is_rw in *. destruct (Z.eqb_spec (ss_use x) 0) as [->|NE]; [reflexivity|discriminate].
Qed.
Lemma idle_tl x l : idle_empty (x :: l) -> idle_empty l.
Proof. intros H y I. apply H. right. exact I. Qed.
Definition fr (x : session) : list nat := if in_use x then uids (ss_objs x) else [].
Lemma sess_frees_fr x : sess_frees x = map Free (fr x).
Proof. unfold sess_frees, fr. destruct (in_use x); [apply all_free_map|reflexivity]. Qed.
Lemma sess_final_objs x x' : sess_final x = Ok x' -> (in_use x = false -> ss_objs x = []) -> ss_objs x' = [] /\ in_use x' = false /\ ss_h x' = ss_h x.
Proof.
  unfold sess_final. intros H E. destruct (free_all _); cbn [bind] in H; try discriminate. destruct (op_session_final _); cbn [bind] in H; try discriminate. injection H as <-. cbn. destruct (in_use x); auto.
Qed.
Lemma fr_objs x : (in_use x = false -> ss_objs x = []) -> fr x = uids (ss_objs x).
Proof. unfold fr. destruct (in_use x); [reflexivity|]. intros E. rewrite E; reflexivity. Qed.
Definition sfree (l l' : list session) (tr : list mop) : Prop := exists us, tr = map Free us /\ Permutation (uids (all_objs l)) (us ++ uids (all_objs l')).
Lemma sfree_nil l : sfree l l [].
Proof. exists []. split; reflexivity. Qed.
Lemma sfree_cons x l l' tr : (in_use x = false -> ss_objs x = []) -> sfree l l' tr -> sfree (x :: l) l' (sess_frees x ++ tr).
Proof.
  intros E (us & -> & P). exists (fr x ++ us). rewrite sess_frees_fr, map_app. split; [reflexivity|]. cbn [all_objs flat_map]. rewrite uids_app, <- app_assoc. rewrite (fr_objs x E). apply Permutation_app_head. exact P.
Qed.
Lemma unused_sfree l l' : idle_empty l -> drop_unused l = Ok l' -> sfree l l' (unused_frees l).
Proof.
  revert l'. induction l as [|x r IH]; intros l' E H; cbn [drop_unused unused_frees] in *; [injection H as <-; apply sfree_nil|].
  destruct (andb _ _); [|injection H as <-; apply sfree_nil]. destruct (sess_final x); cbn [bind] in H; try discriminate. apply sfree_cons; [apply E; left; reflexivity|]. apply IH; [exact (idle_tl _ _ E)|exact H].
Qed.
Lemma dyn_sfree l l' : idle_empty l -> drop_dyn l = Ok l' -> sfree l l' (dyn_frees l) /\ idle_empty l'.
Proof.
  revert l'. induction l as [|x r IH]; intros l' E H; cbn [drop_dyn dyn_frees] in *; [injection H as <-; split; [apply sfree_nil|exact E]|].
  destruct (_ <? _)%Z; [|injection H as <-; split; [apply sfree_nil|exact E]]. destruct (sess_final x); cbn [bind] in H; try discriminate. destruct (IH _ (idle_tl _ _ E) H) as [A B]. split; [|exact B]. apply sfree_cons; [apply E; left; reflexivity|exact A].
Qed.
Lemma sfree_trans a b c t1 t2 : sfree a b t1 -> sfree b c t2 -> sfree a c (t1 ++ t2).
Proof.
  intros (u & -> & P) (v & -> & Q). exists (u ++ v). rewrite map_app, <- app_assoc. split; [reflexivity|]. rewrite P, Q. reflexivity.
Qed.
Lemma sfree_repl x x' r : (in_use x = false -> ss_objs x = []) -> sess_final x = Ok x' -> sfree (x :: r) (x' :: r) (sess_frees x).
Proof.
  intros E H. destruct (sess_final_objs _ _ H E) as (A & _). exists (fr x). rewrite sess_frees_fr. split; [reflexivity|]. cbn [all_objs flat_map]. rewrite A, !uids_app, (fr_objs x E). reflexivity.
Qed.
Lemma head_sfree n : forall l l', idle_empty l -> final_head n l = Ok l' -> sfree l l' (head_frees n l).
Proof.
  induction n as [|n IH]; intros l l' E H; cbn [final_head head_frees] in *; [injection H as <-; apply sfree_nil|].
  destruct l as [|x r]; [injection H as <-; apply sfree_nil|]. destruct (sess_final x) as [x'| |] eqn:F; cbn [bind] in H; try discriminate.
  destruct (sess_final_objs _ _ F (E x (or_introl eq_refl))) as (A & B & _).
  eapply sfree_trans; [apply sfree_repl; [apply E; left; reflexivity|exact F]|]. apply IH; [|exact H]. intros y [<-|I]; [auto|apply E; right; exact I].
Qed.
Lemma close_all_sfree l l' : idle_empty l -> close_all l = Ok l' -> sfree l l' (close_all_frees l).
Proof.
  unfold close_all, close_all_frees. intros E H. destruct (drop_dyn l) as [l1| |] eqn:D; cbn [bind] in H; try discriminate. destruct (dyn_sfree _ _ E D) as [A B]. eapply sfree_trans; [exact A|]. apply head_sfree; assumption.
Qed.
Lemma final_sfree l : idle_empty l -> sfree l [] (final_frees l).
Proof.
  induction l as [|x r IH]; intros E; [apply sfree_nil|]. cbn [final_frees flat_map]. apply sfree_cons; [apply E; left; reflexivity|]. apply IH. exact (idle_tl _ _ E).
Qed.
Lemma close_sfree l x l' : uniq l -> idle_empty l -> In x l -> close_sess l x = Ok l' -> sfree l l' (close_frees l x).
Proof.
  unfold close_sess, close_frees. intros U E I H. destruct (sess_final x) as [x'| |] eqn:F; cbn [bind] in H; try discriminate. destruct l as [|y r]; [contradiction|].
  destruct (andb _ _) eqn:B.
  - assert (y = x) as ->. { apply andb_prop in B as [B _]. apply Z.eqb_eq in B. destruct I as [->|I]; [reflexivity|]. exfalso. unfold uniq in U. cbn [map] in U. inversion U as [|? ? NI _]; subst. apply NI. rewrite B. apply in_map. exact I. }
    apply sfree_cons; [apply E; left; reflexivity|]. apply unused_sfree; [exact (idle_tl _ _ E)|exact H].
  - rewrite app_nil_r. injection H as <-. destruct (sess_final_objs _ _ F (E x I)) as (A & _ & HH). destruct (upd_split _ _ U I) as (l1 & l2 & EL & Q). rewrite (Q x' HH), EL. exists (fr x). rewrite sess_frees_fr. split; [reflexivity|].
    rewrite !all_objs_app. cbn [all_objs flat_map]. fold (all_objs l2). rewrite A, !uids_app, (fr_objs x (E x I)). cbn [app]. apply Permutation_app_swap_app.
Qed.
Lemma mv_sfree s l tr : sfree (s_sess s) l tr -> moves s (set_sess s l) tr [].
Proof. intros (us & -> & P). apply mv_frees. unfold live. cbn [set_sess s_tok s_sess]. rewrite !uids_app, P. apply Permutation_app_swap_app. Qed.

(** ** Objects *)
Section W.
Variable w : world.
Lemma add_live rnd s x b o c h s' : uniq (s_sess s) -> In x (s_sess s) -> AddToSession w rnd s x b o = Ok (c, h, s') ->
  (c = 0%Z /\ Permutation (uids (live s')) (o_uid o :: uids (live s))) \/ (c <> 0%Z /\ uids (live s') = uids (live s)).
Proof.
  unfold AddToSession. intros U I H. destruct (b =? 0)%N.
  - destruct (_ <=? _)%Z; injection H as <- <- <-; [right; split; [discriminate|reflexivity]|]. left. split; [reflexivity|].
    destruct (live_put_sess s x (set_sobjs x (set_handle (set_onTok o (N.odd b)) (next_handle (ss_objs x) b) :: ss_objs x)) U I eq_refl) as (p & q & E1 & E2). rewrite E1, E2, !uids_app. cbn. symmetry. apply Permutation_middle.
  - destruct (_ <=? _)%Z; [injection H as <- <- <-; right; split; [discriminate|reflexivity]|]. destruct (Encode _ _ _ _) as [[c1 o2]| |] eqn:E; cbn [bind] in H; try discriminate.
    destruct (Z.eqb_spec c1 0) as [->|NE]; cbn [negb] in H; [|injection H as <- <- <-; right; auto].
    destruct (store w rnd _) as [[c2 s1]| |] eqn:S; cbn [bind] in H; try discriminate. injection H as <- <- <-. left. split; [reflexivity|]. rewrite (live_store w _ _ _ _ S). apply Encode_id in E as (E & _). unfold live. cbn [set_tok s_tok s_sess set_objs t_objs app uids map set_handle o_uid]. rewrite E. reflexivity.
Qed.
Lemma addo_live rnd s x t o c h s' : uniq (s_sess s) -> In x (s_sess s) -> AddObject w rnd s x t o = Ok (c, h, s') ->
  (c = CKR_OK /\ Permutation (uids (live s')) (o_uid o :: uids (live s))) \/ (c <> CKR_OK /\ uids (live s') = uids (live s)).
Proof.
  unfold AddObject. intros U I H. destruct (tmpl_token t); [|injection H as <- <- <-; right; split; [discriminate|reflexivity]]. destruct (AddToSession _ _ _ _ _ _) as [[[c1 h1] s1]| |] eqn:A; cbn [bind] in H; try discriminate. injection H as <- <- <-.
  destruct (add_live _ _ _ _ _ _ _ _ U I A) as [[-> P]|[NE E]]; [left; auto|right]. split; [|exact E]. destruct (Z.eqb_spec c1 0); [contradiction|discriminate].
Qed.
Lemma mv_added (ok : bool) s s' u : (ok = true /\ Permutation (uids (live s')) (u :: uids (live s))) \/ (ok = false /\ uids (live s') = uids (live s)) -> moves s s' (added u ok) [].
Proof. intros [[-> P]|[-> P]]; [apply mv_new|apply mv_back]; exact P. Qed.
Lemma addo_mv rnd s0 s x t o c h s' : uniq (s_sess s) -> In x (s_sess s) -> uids (live s) = uids (live s0) -> AddObject w rnd s x t o = Ok (c, h, s') -> moves s0 s' (added (o_uid o) (c =? CKR_OK)%Z) [].
Proof.
  intros U I E A. apply mv_added. destruct (addo_live _ _ _ _ _ _ _ _ U I A) as [[-> P]|[NE P]]; [left|right]; rewrite <- E; [auto|]. split; [|exact P]. apply Z.eqb_neq. exact NE.
Qed.
Lemma Create_mv rnd s x t s' o : inv s -> In x (s_sess s) -> Create w rnd s x t = Ok (s', o) -> moves s s' (tr_Create w rnd s x t) [].
Proof.
  unfold Create, tr_Create. intros V I H. destruct (CreateObject _ _ _ _) as [[rv [ob|]]| |] eqn:C; cbn [bind] in H; try discriminate.
  - destruct (AddObject _ _ _ _ _ _) as [[[c h] s1]| |] eqn:A; cbn [bind] in H; try discriminate. injection H as <- <-. apply CreateObject_id in C as (_ & <- & _). eapply addo_mv; [| | |exact A]; [exact (inv_uniq s V)|exact I|reflexivity].
  - unfold rv_ in H. injection H as <- <-. apply mv_back. reflexivity.
Qed.
Lemma Copy_mv rnd s x src t s' o : inv s -> In x (s_sess s) -> Copy w rnd s x src t = Ok (s', o) -> moves s s' (tr_Copy w rnd s x src t) [].
Proof.
  unfold Copy, tr_Copy. intros V I H. destruct (CopyObject _ _ _ _ _) as [[[rv t1] [[b ob]|]]| |] eqn:C; cbn [bind] in H; try discriminate.
  - destruct (AddToSession _ _ _ _ _ _) as [[[c h] s1]| |] eqn:A; cbn [bind] in H; try discriminate. injection H as <- <-. apply CopyObject_id in C as (_ & <- & _). apply mv_added.
    destruct (add_live rnd (bump s 1) x b ob c h s1 (inv_uniq s V) I A) as [[-> P]|[NE P]]; [left; auto|right]. split; [apply Z.eqb_neq; exact NE|exact P].
  - unfold rv_ in H. injection H as <- <-. apply mv_back. reflexivity.
Qed.
Lemma GenKey_mv rnd s x t key s' o : inv s -> In x (s_sess s) -> GenKey w rnd s x t key = Ok (s', o) -> moves s s' (tr_GenKey w rnd s x t key) [].
Proof.
  intros V I H. unfold tr_GenKey. rewrite H. unfold GenKey in H. destruct (NewObject _ _ _ _ _ _) as [[rv [ob|]]| |] eqn:C; cbn [bind] in H; try discriminate.
  - destruct (as_sym ob) as [[l b]| |]; cbn [bind] in H; try discriminate. destruct (_ <? _)%Z; [discriminate|]. destruct (AddObject _ _ _ _ _ _) as [[[c h] s1]| |] eqn:A; cbn [bind] in H; try discriminate. injection H as <- <-. apply NewObject_id in C as (_ & <- & _).
    match type of A with AddObject _ _ _ _ _ ?ob' = _ => change (o_uid ob) with (o_uid ob') end. eapply addo_mv; [| | |exact A]; [exact (inv_uniq s V)|exact I|reflexivity].
  - unfold rv_ in H. injection H as <- <-. apply mv_back. reflexivity.
Qed.
Lemma Unwrap_mv rnd s x m mp uk wr t s' o : inv s -> In x (s_sess s) -> Unwrap w rnd s x m mp uk wr t = Ok (s', o) -> moves s s' (tr_Unwrap w rnd s x m mp uk wr t) [].
Proof.
  intros V I H. unfold tr_Unwrap. rewrite H. unfold Unwrap in H. destruct (negb (is_cbc_pad m)); [injection H as <- <-; apply mv_same; reflexivity|].
  cbv beta zeta in H. destruct (find_last t CKA_KEY_TYPE) as [a|]; [|injection H as <- <-; apply mv_same; reflexivity]. destruct (tmpl_ulong a) as [v|]; [|injection H as <- <-; apply mv_same; reflexivity].
  destruct (negb _); [injection H as <- <-; apply mv_same; reflexivity|]. destruct (find_last t CKA_CLASS) as [a2|]; [|injection H as <- <-; apply mv_same; reflexivity]. destruct (tmpl_ulong a2) as [v2|]; [|injection H as <- <-; apply mv_same; reflexivity].
  destruct (negb _); [injection H as <- <-; apply mv_same; reflexivity|]. destruct (negb _); [injection H as <- <-; apply mv_same; reflexivity|]. destruct (negb _); [injection H as <- <-; apply mv_same; reflexivity|].
  destruct (run_init _ _ _ _ _) as [[x1 o1]| |] eqn:R1; cbn [bind] in H; try discriminate.
  assert (Q1 : exists p, x1 = set_op x p). { unfold run_init in R1. match type of R1 with bind ?A _ = _ => destruct A end; cbn [bind] in R1; try discriminate. match type of R1 with bind ?A _ = _ => destruct A as [[p r]| |] end; cbn [bind] in R1; try discriminate. injection R1 as <- <-. exists p. reflexivity. }
  assert (L : forall y p, y = set_op x p -> uids (live (put_sess s y)) = uids (live s)).
  { intros y p ->. destruct (live_put_sess s x (set_op x p) (inv_uniq s V) I eq_refl) as (f & g & E1 & E2). rewrite E1, E2. reflexivity. }
  destruct (negb _); [injection H as <- <-; apply mv_same; destruct Q1 as [p E]; exact (L _ _ E)|].
  destruct (run_cont _ _ _ _) as [[x2 o2]| |] eqn:R2; cbn [bind] in H; try discriminate.
  assert (Q2 : exists p, x2 = set_op x p). { unfold run_cont in R2. match type of R2 with bind ?A _ = _ => destruct A end; cbn [bind] in R2; try discriminate. match type of R2 with bind ?A _ = _ => destruct A as [[p r]| |] end; cbn [bind] in R2; try discriminate. injection R2 as <- <-. destruct Q1 as [q ->]. exists p. reflexivity. }
  destruct Q2 as [p E2]. specialize (L _ _ E2).
  destruct (negb _); [injection H as <- <-; apply mv_same; exact L|].
  destruct (NewObject _ _ _ _ _ _) as [[rv [ob|]]| |] eqn:C; cbn [bind] in H; try discriminate; [|injection H as <- <-; apply mv_same; exact L].
  destruct (w_p8_dec w (o_out o2)) as [c r]. destruct (negb _); [injection H as <- <-; apply mv_same; exact L|].
  destruct (AddObject _ _ _ _ _ _) as [[[c3 h3] s4]| |] eqn:A; cbn [bind] in H; try discriminate. injection H as <- <-. apply NewObject_id in C as (_ & C & _). change (s_uid (put_sess s x2)) with (s_uid s) in C. rewrite <- C.
  change (o_uid ob) with (o_uid (set_data ob (KRsa r))). eapply addo_mv; [| | |exact A].
  - cbn [bump set_uid s_sess put_sess set_sess]. unfold uniq, upd_sess. rewrite map_map. erewrite map_ext; [exact (inv_uniq s V)|]. intros y. cbn beta. destruct (Z.eqb_spec (ss_h y) (ss_h x2)) as [Eh|]; [symmetry; exact Eh|reflexivity].
  - cbn [bump set_uid s_sess put_sess set_sess]. unfold upd_sess. apply in_map_iff. exists x. split; [|exact I]. rewrite E2. cbn. rewrite Z.eqb_refl. reflexivity.
  - exact L.
Qed.

Lemma addo_sess rnd s x t o c h s' : uniq (s_sess s) -> sess_get s (ss_h x) = Some x -> AddObject w rnd s x t o = Ok (c, h, s') -> uniq (s_sess s') /\ exists x2, sess_get s' (ss_h x) = Some x2.
Proof.
  intros U G A. assert (D : forall s2, s_sess s2 = s_sess s -> uniq (s_sess s2) /\ exists x2, sess_get s2 (ss_h x) = Some x2). { intros s2 E. unfold sess_get in *. rewrite E. split; [exact U|]. exists x. exact G. }
  unfold AddObject in A. destruct (tmpl_token t); [|injection A as <- <- <-; apply D; reflexivity]. destruct (AddToSession _ _ _ _ _ _) as [[[c1 h1] sx]| |] eqn:T; cbn [bind] in A; try discriminate. injection A as _ _ <-. unfold AddToSession in T. destruct (_ =? 0)%N.
  - destruct (_ <=? _)%Z; injection T as _ _ <-; [apply D; reflexivity|]. split; [cbn [put_sess set_sess s_sess]; unfold uniq; rewrite upd_sess_h; exact U|]. eexists. apply (sess_get_put s x); [exact U|exact G|reflexivity|reflexivity].
  - destruct (_ <=? _)%Z; [injection T as _ _ <-; apply D; reflexivity|]. destruct (Encode _ _ _ _) as [[c2 o2]| |]; cbn [bind] in T; try discriminate. destruct (negb _); [injection T as _ _ <-; apply D; reflexivity|]. destruct (store _ _ _) as [[c3 s3]| |] eqn:S; cbn [bind] in T; try discriminate. injection T as _ _ <-. apply store_frame in S as (_ & S & _). apply D. exact S.
Qed.
Lemma GenKeyPair_mv rnd s x m tp tq g s' o : inv s -> sess_get s (ss_h x) = Some x -> GenKeyPair w rnd s x m tp tq g = Ok (s', o) -> moves s s' (tr_GenKeyPair w rnd s x m tp tq g) [].
Proof.
  intros V GS H. pose proof (proj1 (sess_get_in _ _ _ GS)) as I. unfold tr_GenKeyPair. rewrite H. unfold GenKeyPair in H. destruct (match m with KP_RSA => _ | _ => _ end) as [ty|]; [|unfold rv_ in H; injection H as <- <-; apply mv_same; reflexivity].
  destruct (NewObject _ _ (s_uid s) _ _ _) as [[rv [pub|]]| |] eqn:N1; cbn [bind] in H; try discriminate; [|unfold rv_ in H; injection H as <- <-; apply mv_back; reflexivity].
  destruct (NewObject _ _ (S (s_uid s)) _ _ _) as [[rv2 [priv|]]| |] eqn:N2; cbn [bind] in H; try discriminate.
  2:{ unfold rv_ in H. injection H as <- <-. intros hp L P. cbn. rewrite Nat.eqb_refl. cbn. rewrite Nat.eqb_refl. exists hp. auto. }
  assert (B : forall s1 rvx, uids (live s1) = uids (live s) -> Ok (s1, OutRv rvx) = Ok (s', o) -> moves s s' match o with OutH2 _ _ _ => [Alloc (s_uid s); Alloc (S (s_uid s))] | _ => [Alloc (s_uid s); Alloc (S (s_uid s)); Free (s_uid s); Free (S (s_uid s))] end []).
  { intros s1 rvx E Q. injection Q as <- <-. intros hp L P. cbn [heap_run give_back]. destruct (Nat.eqb_spec (S (s_uid s)) (s_uid s)); [lia|]. rewrite Nat.eqb_refl. cbn. rewrite Nat.eqb_refl. exists hp. rewrite E. auto. }
  match type of H with bind ?A _ = _ => destruct A as [[[p q]|]| |] eqn:G end; cbn [bind] in H; try discriminate; [|eapply B; [|exact H]; reflexivity].
  destruct (AddObject _ _ (bump s 2) _ _ _) as [[[c h] s1]| |] eqn:A1; cbn [bind] in H; try discriminate. destruct (addo_sess _ (bump s 2) _ _ _ _ _ _ (inv_uniq s V) GS A1) as (V1 & x0 & G0). pose proof (addo_live _ (bump s 2) _ _ _ _ _ _ (inv_uniq s V) I A1) as L1. destruct (negb _) eqn:C1.
  { destruct L1 as [[-> _]|[_ E1]]; [discriminate|]. eapply B; [|exact H]. exact E1. }
  apply negb_false_iff, Z.eqb_eq in C1. destruct L1 as [[_ L1]|[NE _]]; [|contradiction].
  destruct (sess_get s1 (ss_h x)) as [x2|] eqn:G2; [|discriminate]. clear x0 G0.
  - destruct (AddObject _ _ s1 _ _ _) as [[[c4 h4] s3]| |] eqn:A2; cbn [bind] in H; try discriminate. destruct (Z.eqb_spec c4 CKR_OK) as [->|]; [|discriminate]. injection H as <- <-.
    apply sess_get_in in G2 as (X2 & _). destruct (addo_live _ s1 _ _ _ _ _ _ V1 X2 A2) as [[_ L2]|[NE _]]; [|exfalso; apply NE; reflexivity].
    apply gen_uid in G as [Gp Gq]. apply NewObject_id in N1 as (_ & N1 & _). apply NewObject_id in N2 as (_ & N2 & _). rewrite Gp, N1 in L1. rewrite Gq, N2 in L2.
    intros hp L P. cbn. eexists. split; [reflexivity|]. change (live (bump s 2)) with (live s) in L1. rewrite L2, L1, P. cbn [app]. rewrite <- !Permutation_middle. reflexivity.
Qed.
Lemma Derive_mv rnd s x m b sec t s' o : inv s -> In x (s_sess s) -> Derive w rnd s x m b sec t = Ok (s', o) ->
  exists lost, moves s s' (tr_Derive w s x m sec t) lost /\ length lost <= 1 /\ (lost <> [] -> forall h, o <> OutH CKR_OK h).
Proof.
  intros V I H. unfold Derive, tr_Derive in *.
  assert (Z : forall rv, Ok (s, OutRv rv) = Ok (s', o) -> exists lost, moves s s' [] lost /\ length lost <= 1 /\ (lost <> [] -> forall h, o <> OutH CKR_OK h)).
  { intros rv Q. injection Q as <- <-. exists []. split; [apply mv_same; reflexivity|]. split; [cbn; lia|]. congruence. }
  assert (Q : match sec with None => rv_ s CKR_FUNCTION_FAILED | Some sec => '(rv, o) <- CreateObject (w_oe w) (is_rw x) (s_uid s) t ;;
     let s1 := bump s 1 in match o with None => rv_ s1 rv | Some o => '(c, _, d) <- GetAttr (w_oe w) o CKA_VALUE_LEN (Some 8%Z) ;;
      if negb (c =? 0)%Z then rv_ s1 CKR_OK else let vl := u32 (ulong_of d) in let sl := if andb (0 <? vl)%Z (vl <=? zlen sec)%Z then vl else zlen sec in
      if (sl <? zlen sec)%Z then Undef UB_read_overflow else '(c2, o1) <- SetSecretKey o [None; Some sec] ;;
      if negb (c2 =? 0)%Z then rv_ s1 CKR_FUNCTION_FAILED else '(rv2, h, s2) <- AddObject w rnd s1 x t o1 ;; Ok (s2, OutH rv2 h) end end = Ok (s', o) ->
    exists lost, moves s s' (match sec with None => [] | Some _ => match CreateObject (w_oe w) (is_rw x) (s_uid s) t with Ok (_, Some _) => [Alloc (s_uid s)] | Ok (_, None) => added (s_uid s) false | _ => [] end end) lost /\ length lost <= 1 /\ (lost <> [] -> forall h, o <> OutH CKR_OK h)).
  { clear H. intros H. destruct sec as [sec|]; [|exact (Z _ H)]. destruct (CreateObject _ _ _ _) as [[rv [ob|]]| |] eqn:C; cbn [bind] in H; try discriminate.
    2:{ unfold rv_ in H. injection H as <- <-. exists []. split; [apply mv_back; reflexivity|]. split; [cbn; lia|congruence]. }
    assert (LL : forall rv, Ok (bump s 1, OutRv rv) = Ok (s', o) -> exists lost, moves s s' [Alloc (s_uid s)] lost /\ length lost <= 1 /\ (lost <> [] -> forall h, o <> OutH CKR_OK h)).
    { intros r Q. injection Q as <- <-. exists [s_uid s]. split; [apply mv_lost; reflexivity|]. split; [cbn; lia|discriminate]. }
    destruct (GetAttr _ _ _ _) as [[[c0 l0] d]| |]; cbn [bind] in H; try discriminate. destruct (negb _); [exact (LL _ H)|]. cbv zeta in H. match type of H with (if ?b then _ else _) = _ => destruct b; [discriminate|] end.
    destruct (SetSecretKey _ _) as [[c2 o1]| |] eqn:K; cbn [bind] in H; try discriminate. destruct (negb _); [exact (LL _ H)|].
    destruct (AddObject _ _ _ _ _ _) as [[[c h] s2]| |] eqn:A; cbn [bind] in H; try discriminate. injection H as <- <-. apply CreateObject_id in C as (_ & C & _).
    assert (K' : o_uid o1 = o_uid ob) by (apply SetSecretKey_frame in K as (dd & ->); reflexivity). destruct (addo_live _ (bump s 1) _ _ _ _ _ _ (inv_uniq s V) I A) as [[-> P]|[NE P]]; [exists []|exists [s_uid s]].
    - split; [apply mv_new; rewrite <- C, <- K'; exact P|]. split; [cbn; lia|congruence].
    - split; [apply mv_lost; exact P|]. split; [cbn; lia|]. intros _ h0 [= Eq _]. exact (NE Eq). }
  destruct m; [| |exact (Z _ H)]; match type of H with bind ?A _ = _ => destruct A end; cbn [bind] in H; try discriminate; exact (Q H).
Qed.

(** ** Every call *)
Definition low (s : sys) : Prop := (s_count s <= 0)%Z -> live s = [].
Lemma low_step rnd s c s' o : inv s -> low s -> step w rnd s c = Ok (s', o) -> low s'.
Proof.
  intros V L H. pose proof (step_count w rnd s c s' o V H) as Cn. intros N. destruct (Z.ltb_spec 0 (s_count s)) as [P|P].
  - destruct c; cbn [net1] in Cn; try lia.
    + cbn [step] in H. unfold Finalize in H. destruct (Z.eqb_spec (s_count s - 1) 0); [|lia]. destruct (store _ _ _) as [[? s1]| |]; cbn [bind] in H; try discriminate. destruct (final_all _); cbn [bind] in H; try discriminate. destruct (free_all _); cbn [bind] in H; try discriminate. injection H as <- _. reflexivity.
    + cbn [step] in H. injection H as <- _. reflexivity.
  - specialize (L P). destruct c; cbn [step] in H; unfold with_slot, with_sess, need_lib in H; try (destruct (Z.ltb_spec 0 (s_count s)); [lia|]; unfold rv_ in H; injection H as <- _; exact L).
    + unfold Initialize in H. destruct (Z.eqb_spec (s_count s) 0); [cbn [net1] in Cn; lia|]. injection H as <- _. exact L.
    + unfold Finalize in H. destruct (Z.eqb_spec (s_count s - 1) 0); [lia|]. injection H as <- _. exact L.
    + injection H as <- _. reflexivity.
Qed.
Lemma live_sess s x x' : uniq (s_sess s) -> In x (s_sess s) -> ss_h x' = ss_h x -> ss_objs x' = ss_objs x -> uids (live (put_sess s x')) = uids (live s).
Proof. intros U I E O. destruct (live_put_sess s x x' U I E) as (a & b & E1 & E2). rewrite E1, E2, O. reflexivity. Qed.
Lemma live_tok s t : uids (t_objs t) = uids (t_objs (s_tok s)) -> uids (live (set_tok s t)) = uids (live s).
Proof. intros E. unfold live. cbn [set_tok s_tok s_sess]. rewrite !uids_app, E. reflexivity. Qed.
Lemma moves_live a b a' b' tr l : uids (live a) = uids (live a') -> uids (live b) = uids (live b') -> moves a b tr l -> moves a' b' tr l.
Proof. intros E1 E2 M hp L P. rewrite <- E1 in P. rewrite <- E2. exact (M hp L P). Qed.

(** The calls that can lose an object, told by their outcome. *)
Definition may_lose (co : op * out) : bool :=
  match co with
  | (ODeriveKey _ _ _ (Some _) _, OutH rv _) => negb (rv =? CKR_OK)%Z
  | (ODeriveKey _ _ _ (Some _) _, _) => true
  | _ => false
  end.
Ltac same := apply mv_same; reflexivity.
Ltac quit_ H := unfold rv_ in H; injection H as <- <-; same.
Lemma step_mv rnd s c s' o : inv s -> low s -> c <> ORestart -> step w rnd s c = Ok (s', o) ->
  exists lost, moves s s' (trace w rnd s c) lost /\ length lost <= (if may_lose (c, o) then 1 else 0).
Proof.
  intros V L NR H. destruct (match c with ODeriveKey _ _ _ _ _ => true | _ => false end) eqn:DK.
  - destruct c; try discriminate DK. clear DK. cbn [step trace] in *. unfold with_sess, need_lib, on_sess in *.
    destruct (0 <? s_count s)%Z; [|exists []; split; [quit_ H|cbn; lia]]. destruct (sess_get s h) as [x|] eqn:G; [|exists []; split; [quit_ H|cbn; lia]]. unfold with_object in H. destruct (find_obj s x hb); [|exists []; split; [quit_ H|cbn; lia]].
    pose proof (proj1 (sess_get_in _ _ _ G)) as I. destruct (Derive_mv _ _ _ _ _ _ _ _ _ V I H) as (lost & M & L1 & L2). exists lost. split; [exact M|].
    destruct secret as [sec|]; cbn [may_lose].
    + destruct o as [rv|rv hh| | | | | |]; try exact L1. destruct (Z.eqb_spec rv CKR_OK) as [->|]; [|exact L1]. cbn. destruct lost; [cbn; lia|]. exfalso. refine (L2 _ hh eq_refl). discriminate.
    + destruct lost; [cbn; lia|]. exfalso. specialize (M (uids (live s)) [] (Permutation_refl _)) as (hp' & R & P). unfold Derive in H.
      assert (Hs : s' = s /\ tr_Derive w s x m None t = []). { unfold tr_Derive. destruct m; (split; [|reflexivity]); [| |unfold rv_ in H; injection H as <- _; reflexivity]; match type of H with bind ?A _ = _ => destruct A end; cbn [bind] in H; try discriminate; unfold rv_ in H; injection H as <- _; reflexivity. }
      destruct Hs as [-> Ht]. rewrite Ht in R. cbn in R. injection R as <-. apply Permutation_length in P. cbn in P. rewrite app_length in P. lia.
  - exists []. split; [|cbn; lia].
    assert (SS : forall x, In x (s_sess s) -> forall x', ss_h x' = ss_h x -> ss_objs x' = ss_objs x -> uids (live (put_sess s x')) = uids (live s)) by (intros x I x'; apply live_sess; [apply inv_uniq, V|exact I]).
    assert (RI : forall x k ob x1 r, run_init w s x k ob = Ok (x1, r) -> exists p, x1 = set_op x p).
    { intros x k ob x1 r R1. unfold run_init in R1. match type of R1 with bind ?A _ = _ => destruct A end; cbn [bind] in R1; try discriminate. match type of R1 with bind ?A _ = _ => destruct A as [[p q]| |] end; cbn [bind] in R1; try discriminate. injection R1 as <- <-. eauto. }
    assert (RC : forall x k x1 r, run_cont w s x k = Ok (x1, r) -> exists p, x1 = set_op x p).
    { intros x k x1 r R1. unfold run_cont in R1. match type of R1 with bind ?A _ = _ => destruct A end; cbn [bind] in R1; try discriminate. match type of R1 with bind ?A _ = _ => destruct A as [[p q]| |] end; cbn [bind] in R1; try discriminate. injection R1 as <- <-. eauto. }
    destruct c; try discriminate DK; try congruence; cbn [step trace] in *; unfold with_slot, with_sess, need_lib, on_sess, on_slot in *.
    + (* C_Initialize *) unfold Initialize in H. destruct (Z.eqb_spec (s_count s) 0) as [E|E]; [|injection H as <- <-; same]. destruct (Token_Load _ _ _) as [t| |]; cbn [bind] in H; try discriminate. injection H as <- <-.
      intros hp M P. rewrite (L ltac:(lia)) in P. cbn in P. rewrite app_nil_r in P. replace (map (fun o => Alloc (o_uid o)) (t_objs t)) with (map Alloc (uids (t_objs t))) by (unfold uids; apply map_map). rewrite heap_allocs. eexists. split; [reflexivity|]. unfold live. cbn. rewrite app_nil_r, P, Permutation_app_comm. apply Permutation_app_head. symmetry. apply Permutation_rev.
    + (* C_Finalize *) unfold Finalize in H. destruct (Z.eqb_spec (s_count s - 1) 0) as [E|E]; [|injection H as <- <-; same]. destruct (store _ _ _) as [[? s1]| |] eqn:S; cbn [bind] in H; try discriminate. destruct (final_all _); cbn [bind] in H; try discriminate. destruct (free_all _); cbn [bind] in H; try discriminate. injection H as <- <-.
      destruct (final_sfree (s_sess s)) as (us & Eq & P). { apply sess_ok_idle. apply V. lia. } rewrite Eq, all_free_map, <- map_app. apply mv_frees. unfold live. cbn. rewrite app_nil_r, uids_app, P. cbn. rewrite app_nil_r. apply Permutation_app_comm.
    + (* C_InitToken *) destruct (0 <? _)%Z; [|quit_ H]. destruct (slot_ok slot); [|quit_ H]. rewrite H. unfold InitToken in H.
      repeat match type of H with (if ?b then rv_ _ _ else _) = _ => destruct b; [quit_ H|] end.
      destruct (TokenReset _ _ _ _ _) as [[c s1]| |] eqn:T; cbn [bind] in H; try discriminate. unfold rv_ in H. injection H as <- <-.
      unfold TokenReset in T. destruct (free_all _); cbn [bind] in T; try discriminate. destruct (zlen _ <? 32)%Z; [discriminate|]. unfold SetSOPin in T. apply live_store in T.
      replace (orb _ _) with true by (destruct (c =? 0)%Z; reflexivity). rewrite all_free_map. apply mv_frees. rewrite T. unfold live. cbn. rewrite uids_app. reflexivity.
    + (* C_InitPIN *) destruct (0 <? _)%Z; [|quit_ H]. destruct (sess_get s h); [|quit_ H]. unfold InitPIN in H. repeat match type of H with (if ?b then rv_ _ _ else _) = _ => destruct b; [quit_ H|] end.
      destruct (SetUserPin _ _ _ _) as [[c s1]| |] eqn:T; cbn [bind] in H; try discriminate. unfold rv_ in H. injection H as <- <-. apply mv_same. unfold SetUserPin in T. apply live_store in T. rewrite T. apply live_tok. reflexivity.
    + (* C_SetPIN *) destruct (0 <? _)%Z; [|quit_ H]. destruct (sess_get s h); [|quit_ H]. unfold SetPIN in H. cbv zeta in H. repeat match type of H with (if ?b then rv_ _ _ else _) = _ => destruct b; [quit_ H|] end.
      match type of H with bind ?r _ = _ => destruct r as [[c s1]| |] eqn:T end; cbn [bind] in H; try discriminate. unfold rv_ in H. injection H as <- <-. apply mv_same.
      destruct (_ =? _)%Z; [unfold SetSOPin in T|unfold SetUserPin in T]; apply live_store in T; rewrite T; apply live_tok; reflexivity.
    + (* C_OpenSession *) destruct (0 <? s_count s)%Z eqn:Cn; [|quit_ H]. destruct (slot_ok slot); [|quit_ H]. apply Z.ltb_lt in Cn. apply OpenSession_ok in H as [[-> _] | (l & x & -> & _ & K1 & K2 & _ & _ & _ & K3 & _)]; [same| |exact V|exact Cn].
      apply mv_same. rewrite (live_sess (set_sess s l) x); [|apply chain_uniq, K1|exact K3|reflexivity|reflexivity]. unfold live. cbn. rewrite K2. reflexivity.
    + (* C_CloseSession *) destruct (0 <? s_count s)%Z eqn:Cn; [|quit_ H]. destruct (sess_get s h) as [x|] eqn:G; [|quit_ H]. apply Z.ltb_lt in Cn. apply sess_get_in in G as (X & _).
      unfold CloseSession in H. destruct (close_sess _ _) as [l| |] eqn:CL; cbn [bind] in H; try discriminate.
      assert (M : moves s (set_sess s l) (close_frees (s_sess s) x) []). { apply mv_sfree. apply close_sfree; [apply inv_uniq, V|apply sess_ok_idle, V, Cn|exact X|exact CL]. }
      destruct (existsb in_use l); [unfold rv_ in H; injection H as <- <-; exact M|]. destruct (Logout _ _) as [t| |] eqn:LO; cbn [bind] in H; try discriminate. unfold rv_ in H. injection H as <- <-.
      revert M. apply moves_live; [reflexivity|]. symmetry. apply live_tok. apply Logout_ok in LO as (_ & LO & _). apply ident_uids. exact LO.
    + (* C_CloseAllSessions *) destruct (0 <? s_count s)%Z eqn:Cn; [|quit_ H]. destruct (slot_ok slot); [|quit_ H]. apply Z.ltb_lt in Cn. destruct (close_all _) as [l| |] eqn:CL; cbn [bind] in H; try discriminate. unfold rv_ in H. injection H as <- <-.
      apply mv_sfree. apply close_all_sfree; [apply sess_ok_idle, V, Cn|exact CL].
    + destruct (0 <? _)%Z; [|quit_ H]. destruct (sess_get s h); [|quit_ H]. injection H as <- <-. same.
    + (* C_Login *) destruct (0 <? _)%Z; [|quit_ H]. destruct (sess_get s h); [|quit_ H]. unfold Login in H. destruct (negb _); [quit_ H|].
      destruct (ut =? CKU_SO)%Z; [|destruct (ut =? CKU_USER)%Z; [|destruct (ut =? CKU_CONTEXT_SPECIFIC)%Z; quit_ H]].
      * destruct (SOLogin _ _ _ _ _) as [c t] eqn:T. unfold rv_ in H. injection H as <- <-. apply mv_same, live_tok. apply SOLogin_ok in T as (-> & _). reflexivity.
      * destruct (UserLogin _ _ _ _) as [[c t]| |] eqn:T; cbn [bind] in H; try discriminate. unfold rv_ in H. injection H as <- <-. apply mv_same, live_tok. apply UserLogin_ok in T as (T & _). apply ident_uids. exact T.
    + destruct (0 <? _)%Z; [|quit_ H]. destruct (sess_get s h); [|quit_ H]. destruct (Logout _ _) as [t| |] eqn:LO; cbn [bind] in H; try discriminate. unfold rv_ in H. injection H as <- <-. apply mv_same, live_tok. apply Logout_ok in LO as (_ & LO & _). apply ident_uids. exact LO.
    + destruct (0 <? _)%Z; [|quit_ H]. destruct (slot_ok slot); [|quit_ H]. injection H as <- <-. same.
    + (* C_CreateObject *) destruct (0 <? _)%Z; [|quit_ H]. destruct (sess_get s h) as [x|] eqn:G; [|quit_ H]. unfold need_rw in H. destruct (is_rw x); [|quit_ H]. eapply Create_mv; [exact V|exact (proj1 (sess_get_in _ _ _ G))|exact H].
    + (* C_CopyObject *) destruct (0 <? _)%Z; [|quit_ H]. destruct (sess_get s h) as [x|] eqn:G; [|quit_ H]. unfold need_rw in H. destruct (is_rw x); [|quit_ H]. unfold with_object in H. destruct (find_obj s x ho); [|quit_ H]. eapply Copy_mv; [exact V|exact (proj1 (sess_get_in _ _ _ G))|exact H].
    + (* C_DestroyObject *) destruct (0 <? _)%Z; [|quit_ H]. destruct (sess_get s h) as [x|] eqn:G; [|quit_ H]. unfold need_rw in H. destruct (is_rw x); [|quit_ H]. unfold with_object in H. destruct (find_obj s x ho) as [ob|] eqn:FO; [|quit_ H].
      destruct (RemoveObject _ _ _ _ _ _) as [s1| |] eqn:R; cbn [bind] in H; try discriminate. unfold rv_ in H. injection H as <- <-. apply (mv_frees s s1 [o_uid ob]). apply sess_get_in in G as (X & _).
      unfold RemoveObject in R. destruct (obj_free ob); cbn [bind] in R; try discriminate. unfold find_obj in FO. destruct (on_token ho).
      * destruct (o_onTok ob); [|discriminate]. destruct (no_kind ob); [discriminate|]. cbv zeta in R. destruct (store _ _ _) as [[? s2]| |] eqn:S; cbn [bind] in R; try discriminate. injection R as <-. rewrite (live_store w _ _ _ _ S).
        apply find_some in FO as [FO _]. unfold live. cbn [do_ops set_tok s_tok s_sess set_objs t_objs]. rewrite !uids_app. pose proof (Permutation_map o_uid (remove_uid_perm _ _ FO (uid_tok s (proj1 (proj2 (proj2 V)))))) as RP. unfold uids at 1. rewrite RP. reflexivity.
      * injection R as <-. apply find_some in FO as [FO _]. destruct (live_put_sess s x (set_sobjs x (remove_uid (o_uid ob) (ss_objs x))) (inv_uniq s V) X eq_refl) as (p1 & p2 & E1 & E2). rewrite E1, E2, !uids_app. cbn [set_sobjs ss_objs].
        pose proof (Permutation_map o_uid (remove_uid_perm _ _ FO (uid_sess s x (proj1 (proj2 (proj2 V))) X))) as RP. unfold uids at 2. rewrite RP. symmetry. apply (Permutation_middle (uids p1)).
    + destruct (0 <? _)%Z; [|quit_ H]. destruct (sess_get s h) as [x|]; [|quit_ H]. unfold with_object in H. destruct (find_obj s x ho); [|quit_ H]. destruct (GetAttributeValue _ _ _) as [[? ?]| |]; cbn [bind] in H; try discriminate. injection H as <- <-. same.
    + destruct (0 <? _)%Z; [|quit_ H]. destruct (sess_get s h) as [x|]; [|quit_ H]. unfold need_rw in H. destruct (is_rw x); [|quit_ H]. unfold with_object in H. destruct (find_obj s x ho); [|quit_ H]. destruct (SetAttributeValue _ _ _ _) as [[? ?]| |]; cbn [bind] in H; try discriminate. unfold rv_ in H. injection H as <- <-. apply mv_same, live_put_obj.
    + destruct (0 <? _)%Z; [|quit_ H]. destruct (sess_get s h) as [x|] eqn:G; [|quit_ H]. apply sess_get_in in G as (X & _). unfold FindInit in H. destruct (ss_find x); [quit_ H|]. cbv zeta in H.
      assert (J : forall b l, Ok (put_sess s (set_find x true l 0), OutRv b) = Ok (s', o) -> moves s s' [] []) by (intros b l Q; injection Q as <- <-; apply mv_same, (SS x X); reflexivity).
      destruct (find_last t CKA_TOKEN); [destruct (tmpl_token t); [|exact (J _ _ H)]|]; match type of H with bind ?A _ = _ => destruct A end; cbn [bind] in H; try discriminate; exact (J _ _ H).
    + destruct (0 <? _)%Z; [|quit_ H]. destruct (sess_get s h) as [x|] eqn:G; [|quit_ H]. apply sess_get_in in G as (X & _). unfold FindNext in H. injection H as <- <-. apply mv_same, (SS x X); reflexivity.
    + destruct (0 <? _)%Z; [|quit_ H]. destruct (sess_get s h) as [x|] eqn:G; [|quit_ H]. apply sess_get_in in G as (X & _). unfold rv_ in H. injection H as <- <-. apply mv_same, (SS x X); reflexivity.
    + destruct (0 <? _)%Z; [|quit_ H]. destruct (sess_get s h) as [x|] eqn:G; [|quit_ H]. destruct aes; [|quit_ H]. eapply GenKey_mv; [exact V|exact (proj1 (sess_get_in _ _ _ G))|exact H].
    + destruct (0 <? _)%Z; [|quit_ H]. destruct (sess_get s h) as [x|] eqn:G; [|quit_ H]. eapply GenKeyPair_mv; [exact V| |exact H]. rewrite (proj1 (proj2 (sess_get_in _ _ _ G))). exact G.
    + (* C_WrapKey *) destruct (0 <? _)%Z; [|quit_ H]. destruct (sess_get s h) as [x|] eqn:G; [|quit_ H]. apply sess_get_in in G as (X & _). unfold need_rw in H. destruct (is_rw x); [|quit_ H]. unfold with_object in H. destruct (find_obj s x hk); [|quit_ H]. destruct (find_obj s x hw); [|quit_ H].
      unfold Wrap in H. destruct (negb _); [quit_ H|]. destruct (as_rsa _); cbn [bind] in H; try discriminate. destruct (w_p8 w _). destruct (negb _); [quit_ H|]. destruct (negb _); [quit_ H|]. destruct (negb _); [quit_ H|].
      match type of H with bind ?A _ = _ => destruct A as [[xx1 oo1]| |] eqn:R1 end; cbn [bind] in H; try discriminate. apply RI in R1 as [p ->]. destruct (negb _); [unfold rv_ in H; injection H as <- <-; apply mv_same, (SS x X); reflexivity|].
      match type of H with bind ?A _ = _ => destruct A as [[xx2 oo2]| |] eqn:R2 end; cbn [bind] in H; try discriminate. apply RC in R2 as [p2 ->]. injection H as <- <-. apply mv_same, (SS x X); reflexivity.
    + destruct (0 <? _)%Z; [|quit_ H]. destruct (sess_get s h) as [x|] eqn:G; [|quit_ H]. unfold need_rw in H. destruct (is_rw x); [|quit_ H]. destruct (_ =? 0)%Z; [quit_ H|]. unfold with_object in H. destruct (find_obj s x hu); [|quit_ H]. eapply Unwrap_mv; [exact V|exact (proj1 (sess_get_in _ _ _ G))|exact H].
    + (* cryptographic operations *) destruct (0 <? _)%Z; [|quit_ H]. destruct (sess_get s h) as [x|] eqn:G; [|quit_ H]. apply sess_get_in in G as (X & _). destruct (with_key c 0).
      * unfold with_object in H. destruct (find_obj s x hk); [|quit_ H]. destruct (with_key c _); [|quit_ H]. match type of H with bind ?A _ = _ => destruct A as [[xx1 oo1]| |] eqn:R1 end; cbn [bind] in H; try discriminate. apply RI in R1 as [p ->]. injection H as <- <-. apply mv_same, (SS x X); reflexivity.
      * destruct c; try (quit_ H; fail); (match type of H with bind ?A _ = _ => destruct A as [[xx1 oo1]| |] eqn:R1 end; cbn [bind] in H; try discriminate; apply RC in R1 as [p ->]; injection H as <- <-; apply mv_same, (SS x X); reflexivity).
Qed.
End W.
