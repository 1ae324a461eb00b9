(** C124: token objects and their attributes survive restarts, in every history: the reference machine of Archive.v. *)
From Verif Require Import Base Codec Ops Object ObjectSpec ObjectProofs AttrProofs Store StoreSpec StoreProofs Sys SysProofs SysProofs2 SysProofs3 SysProofs4 WfProofs LoginProofs KeyProofs ToySys PropSys1 PropSys2
  HeapProofs AttrFrame AttrProofs2 ObjFrame ObjProofs HandleProofs DiskHandles PropObject PropStore PropObj PropObj2 Device DeviceProofs PropDevice Table TableProofs PropTable Note NoteProofs PropNote Archive ArchiveProofs.
From Verif Require DurableProofs PropDurable.

Definition asim (w : world) (s : sys) (a : archive) : Prop := nsim s (a_now a) /\
  ((0 < s_count s)%Z -> a_clean a = true -> mirrored w s) /\
  ((s_count s <= 0)%Z -> forall l g, a_saved a = Some (l, g) -> stores w (s_fs s) l g).
Lemma next_any st st' a c o : reads a c = false -> notes_next st (a_now a) c o = notes_next st' (a_now a) c o.
Proof. intros R. unfold notes_next. f_equal. destruct c; try reflexivity. cbn [table_next]. unfold reads, count in R. rewrite R. reflexivity. Qed.
Lemma same_list_eq a b : a = b -> same_list a b = true.
Proof. intros ->. unfold same_list. destruct (list_eq_dec _ _ _); [reflexivity|contradiction]. Qed.

Lemma next_count d c o : DurableProofs.lib_op c = false -> d_count (next d c o) = d_count d.
Proof.
  intros Lo. destruct c; try discriminate Lo; cbn [next]; try (destruct (negb _); reflexivity).
  - destruct (negb _); [destruct (_ =? _)%Z|]; reflexivity.
  - destruct (negb _); [reflexivity|]. destruct o; reflexivity.
  - destruct (negb _); [reflexivity|]. cbv zeta. destruct (any_open _); reflexivity.
Qed.

Section W.
Variable w : world.
Hypothesis L : laws (w_se w).
(** While the library is up. *)
Lemma clean_step m rnd s a c s' o st : inv s -> good True m s -> (m < 2^28)%Z -> ginv (s_tok s') -> tidy w s -> tidy w s' -> asim w s a -> step w rnd s c = Ok (s', o) ->
  reads a c = false -> tsim s' (n_tab (now_next st a c o)) -> (0 < s_count s')%Z -> clean_next a (now_next st a c o) c o = true -> mirrored w s'.
Proof.
  intros I G M Gi Td Td' (Ns & Cl & _) E R T' C' K. unfold clean_next in K. rewrite R in K. destruct (unsaved c o) eqn:U; [discriminate|].
  assert (Keep : s_fs s' = s_fs s -> map obj_view (t_objs (s_tok s')) = map obj_view (t_objs (s_tok s)) -> (0 < s_count s)%Z -> mirrored w s').
  { intros Ef Ev C. rewrite same_list_eq in K.
    - intros uid. destruct (Cl C K uid) as (t & A & B). exists t. rewrite Ef, Ev. auto.
    - destruct T' as (_ & T' & _). rewrite <- T'. destruct Ns as ((_ & T & _) & _). rewrite <- T. apply view_handles. exact Ev. }
  assert (Cn : s_count s = count a) by apply Ns. destruct (DurableProofs.lib_op c) eqn:Lo.
  - destruct c; try discriminate Lo; cbn [step] in E.
    + cbn [reads] in R. rewrite <- Cn in R. unfold Initialize in E. rewrite R in E. injection E as <- _. cbn [s_count] in C'. apply Keep; [reflexivity|reflexivity|]. lia.
    + unfold Finalize in E. destruct (Z.eqb_spec (s_count s - 1) 0).
      * destruct (store _ _ _) as [[? ?]| |]; cbn [bind] in E; try discriminate. destruct (final_all _); cbn [bind] in E; try discriminate. destruct (free_all _); cbn [bind] in E; try discriminate.
        injection E as <- _. cbn in C'. lia.
      * injection E as <- _. cbn [s_count] in C'. apply Keep; [reflexivity|reflexivity|lia].
    + injection E as <- _. cbn in C'. lia.
  - destruct (level_unsaved w m rnd s c s' o I G M Td Lo U E) as [Co [[Ef El]|Sv]]; [|apply saved_mirrored; assumption].
    apply Keep; [exact Ef| |lia]. exact (f_equal snd El).
Qed.
(** While it is down. *)
Lemma saved_step rnd s a c s' o l g : inv s -> ginv (s_tok s) -> tidy w s -> asim w s a -> step w rnd s c = Ok (s', o) -> (s_count s' <= 0)%Z -> saved_next a c = Some (l, g) -> stores w (s_fs s') l g.
Proof.
  intros I Gi Td (Ns & Cl & Sv) E C' K. assert (Cn : s_count s = count a) by apply Ns. destruct (DurableProofs.lib_op c) eqn:Lo.
  - destruct c; try discriminate Lo; cbn [step saved_next] in *.
    + unfold Initialize in E. destruct (Z.eqb_spec (s_count s) 0).
      * destruct (Token_Load _ _ _); cbn [bind] in E; try discriminate. injection E as <- _. cbn in C'. lia.
      * injection E as <- _. cbn [s_count s_fs] in *. apply Sv; [lia|exact K].
    + unfold Finalize in E. rewrite <- Cn in K. destruct (Z.eqb_spec (s_count s - 1) 0).
      * destruct (Z.eqb_spec (s_count s) 1); [|lia]. destruct (store _ _ _) as [[c1 s1]| |] eqn:St; cbn [bind] in E; try discriminate.
        destruct (final_all _); cbn [bind] in E; try discriminate. destruct (free_all _); cbn [bind] in E; try discriminate. injection E as <- _. cbn [s_fs].
        injection K as <- <-. eapply view_stores; [exact Ns|]. exact (stored_mirrored w L _ _ _ _ Gi Td St).
      * destruct (Z.eqb_spec (s_count s) 1); [lia|]. injection E as <- _. cbn [s_count s_fs] in *. apply Sv; [lia|exact K].
    + injection E as <- _. cbn [s_fs]. rewrite <- Cn in K. destruct (Z.leb_spec (s_count s) 0); [apply Sv; assumption|]. destruct (a_clean a) eqn:A; [|discriminate]. injection K as <- <-.
      eapply view_stores; [exact Ns|]. exact (Cl ltac:(lia) eq_refl).
  - assert (Ks : saved_next a c = a_saved a) by (destruct c; try discriminate Lo; reflexivity). rewrite Ks in K.
    destruct (Z_le_gt_dec (s_count s) 0) as [C|C].
    + rewrite (idle_same w _ _ _ _ _ C Lo E). apply Sv; assumption.
    + exfalso. assert (Q : s_count s' = s_count s); [|lia]. destruct (C118_step w rnd s (b_dev (n_tab (a_now a))) c s' o I) as [_ Nx]; [apply Ns|exact E|].
      assert (Q : s_count s' = d_count (next (b_dev (n_tab (a_now a))) c o)) by apply Nx. rewrite Q, next_count by exact Lo. symmetry. exact Cn.
Qed.

(** ** One call *)
Theorem C124_step m m' rnd s a c s' o : inv s -> good True m s -> (0 <= m)%Z -> (m + uses c < 2^28)%Z -> good True m' s' -> (m' < 2^28)%Z -> ginv (s_tok s) -> ginv (s_tok s') ->
  tidy w s -> tidy w s' -> bool_call c -> asim w s a -> step w rnd s c = Ok (s', o) ->
  notes_say (a_now a) c o /\ exists stored, asim w s' (archive_next stored a c o).
Proof.
  intros I G M0 M G' M' Gi Gi' Td Td' B A E. pose proof A as (Ns & Cl & Sv). pose proof (uses_pos c) as Up.
  destruct (C123_step w m m' rnd s (a_now a) c s' o I G M0 M G' M' B Ns E) as (Sy & st & Ns'). split; [exact Sy|]. exists st.
  assert (Sa : (s_count s' <= 0)%Z -> forall l g, saved_next a c = Some (l, g) -> stores w (s_fs s') l g) by (intros C' l g; eapply saved_step; eassumption).
  destruct (reads a c) eqn:R.
  - destruct c; try discriminate R. assert (Cn : s_count s = count a) by apply Ns. cbn [reads] in R. pose proof R as R0. rewrite <- Cn in R0. cbn [step] in E. unfold Initialize in E. rewrite R0 in E.
    destruct (Token_Load _ _ _) as [t| |] eqn:Ld; cbn [bind] in E; try discriminate. injection E as <- <-.
    assert (Ml : mirrored w (mkSys 1 (add_sess (add_sess [])) t (s_fs s) (s_log s) (s_uid s + length (t_objs t)))).
    { intros uid. cbn [s_fs s_tok]. destruct (DurableProofs.Token_Load_uid w (s_fs s) (s_uid s) uid t Ld) as (t' & A1 & A2). exists t'. split; [exact A1|]. exact (f_equal snd A2). }
    assert (Sto : forall l g, a_saved a = Some (l, g) -> handles (t_objs t) = l /\ forall o ty v, In o (t_objs t) -> g (o_handle o) ty = Some v -> holds o ty v).
    { intros l g K. destruct (Sv ltac:(lia) l g K (s_uid s)) as (t' & A1 & A2). rewrite Ld in A1. injection A1 as <-. exact A2. }
    split; [|split; [intros _ _; exact Ml|exact Sa]]. unfold archive_next, now_next. cbn [a_now reads]. rewrite R.
    destruct Ns' as [T' _]. split; cbn [n_tab n_val].
    + destruct T' as (T1 & T2 & T3). cbn [notes_next n_tab table_next] in *. unfold count in R. rewrite R in *. cbn [b_tok b_dev b_of s_tok] in *. split; [exact T1|]. split; [|exact T3].
      unfold found. destruct (a_saved a) as [[l g]|]; [apply (Sto l g eq_refl)|exact T2].
    + intros k q ty v J F. unfold recalled in F. destruct (a_saved a) as [[l g]|]; [|discriminate F]. destruct k; [discriminate F|]. destruct (Sto l g eq_refl) as [_ S2]. exact (S2 _ _ _ J F).
  - assert (Nn : now_next st a c o = notes_next st (a_now a) c o) by (unfold now_next; rewrite R; apply next_any; exact R).
    split; [cbn [archive_next a_now]; rewrite Nn; exact Ns'|]. split; [|exact Sa].
    intros C' K. cbn [archive_next a_clean] in K. eapply (clean_step m); try eassumption; [lia|]. rewrite Nn. apply Ns'.
Qed.
End W.
Print Assumptions C124_step.

(** ** Histories *)
(** Every state of the history could be stored (see C49, C102): the sizes of attributes fit the C types and every token object has its
    key data, a certificate its value. *)
Fixpoint tidy_run (w : world) (s : sys) (l : list (op * (nat -> list N))) : Prop :=
  tidy w s /\ match l with [] => True | (c, r) :: l' => match step w r s c with Ok (s1, _) => tidy_run w s1 l' | _ => True end end.
Lemma tidy_run_app w l l' : forall s s1 os, tidy_run w s (l ++ l') -> run w s l = Ok (s1, os) -> tidy_run w s l /\ tidy_run w s1 l'.
Proof.
  induction l as [|[c r] l IH]; intros s s1 os T R; cbn [app run tidy_run] in *.
  - injection R as <- _. split; [|exact T]. split; [|exact Logic.I]. destruct l' as [|[c r] l']; apply T.
  - destruct (step w r s c) as [[s2 o2]| |]; cbn [bind] in R; try discriminate. destruct (run _ _ l) as [[s3 os3]| |] eqn:R2; cbn [bind] in R; try discriminate. injection R as <- _.
    destruct T as [T1 T2]. destruct (IH _ _ _ T2 R2) as [A B]. split; [split; assumption|exact B].
Qed.
Lemma run_split w l l' : forall s s' os, run w s (l ++ l') = Ok (s', os) -> exists s1 os1 os2, run w s l = Ok (s1, os1) /\ run w s1 l' = Ok (s', os2) /\ os = os1 ++ os2 /\ length os1 = length l.
Proof.
  induction l as [|[c r] l IH]; intros s s' os R; cbn [app run] in *; [exists s, [], os; auto|].
  destruct (step w r s c) as [[s2 o2]| |]; cbn [bind] in R; try discriminate. destruct (run _ _ _) as [[s3 os3]| |] eqn:R2; cbn [bind] in R; try discriminate. injection R as <- <-.
  destruct (IH _ _ _ R2) as (s1 & os1 & os2 & A & B & -> & Le). exists s1, (o2 :: os1), os2. cbn [bind]. rewrite A. cbn [bind]. repeat split; auto. cbn [length]. congruence.
Qed.
Lemma run_archiving w (L : laws (w_se w)) d l : forall m s a s' os, orderly w True d m s -> (m + 2 * zlen l < 2^28)%Z -> tidy_run w s l -> asim w s a -> run w s l = Ok (s', os) ->
  Forall (fun c => bool_call (fst c)) l -> exists a' m', archiving a (map fst l) os a' /\ asim w s' a' /\ orderly w True d m' s' /\ (m' <= m + 2 * zlen l)%Z.
Proof.
  induction l as [|[c rnd] l IH]; intros m s a s' os O M Td S R F; cbn [run] in R.
  - injection R as <- <-. exists a, m. split; [constructor|]. split; [exact S|]. split; [exact O|unfold zlen; cbn; lia].
  - cbn [tidy_run] in Td. destruct (step _ _ _ _) as [[s1 o1]| |] eqn:E; cbn [bind] in R; try discriminate. destruct (run _ _ _) as [[s2 os2]| |] eqn:R2; cbn [bind] in R; try discriminate. injection R as <- <-.
    inversion F as [|? ? F1 F2]. subst. cbn [fst] in F1. pose proof (uses_two c) as U2. pose proof (uses_pos c) as U0. pose proof (orderly_pos _ _ _ _ _ O) as P.
    assert (Z1 : zlen ((c, rnd) :: l) = (zlen l + 1)%Z) by (unfold zlen; cbn [length]; lia). rewrite Z1 in *. assert (Z2 : (0 <= zlen l)%Z) by (unfold zlen; lia).
    assert (O1 : orderly w True d (m + uses c) s1) by (econstructor; [exact O|exact E|apply usual_bytes, bool_usual; exact F1]).
    destruct (orderly_kept w True (l_hash _ L) _ _ _ O) as [G _]; [lia|]. destruct (orderly_kept w True (l_hash _ L) _ _ _ O1) as [G1 _]; [lia|].
    pose proof (reach_ginv w (l_hash _ L) _ _ (orderly_reach _ _ _ _ _ O)) as Gi. pose proof (reach_ginv w (l_hash _ L) _ _ (orderly_reach _ _ _ _ _ O1)) as Gi1.
    destruct Td as [Td Td2]. assert (Td1 : tidy w s1) by (destruct l as [|[? ?] ?]; apply Td2).
    destruct (C124_step w L m (m + uses c) rnd s a c s1 o1 (reach_inv w _ _ (orderly_reach _ _ _ _ _ O)) G P ltac:(lia) G1 ltac:(lia) Gi Gi1 Td Td1 F1 S E) as (Sy & st & S1).
    destruct (IH (m + uses c)%Z s1 _ s2 os2 O1 ltac:(lia) Td2 S1 R2 F2) as (b' & m' & T & S' & O' & M'). exists b', m'.
    split; [econstructor; eassumption|]. split; [exact S'|]. split; [exact O'|lia].
Qed.
Lemma asim0 w d : d (F_TOKEN, 0%nat) = None -> asim w (sys0 d) archive0.
Proof.
  intros D. split; [exact (nsim0 d)|]. split; [cbn; lia|]. intros _ l g K. injection K as <- <-. intros uid. exists tok_fresh. unfold Token_Load. cbn [s_fs sys0]. rewrite D.
  split; [reflexivity|]. split; [reflexivity|]. intros o ty v [].
Qed.
(** Every history from an empty storage whose states could all be stored is one of the machine. *)
Theorem C124_follows : forall w d l s os, laws (w_se w) -> d (F_TOKEN, 0%nat) = None -> (2 * zlen l < 2^28)%Z -> Forall (fun c => bool_call (fst c)) l -> tidy_run w (sys0 d) l ->
  run w (sys0 d) l = Ok (s, os) ->
  exists a, archiving archive0 (map fst l) os a /\
    (forall h x o ty v, sess_get s h = Some x -> In o (t_objs (s_tok s) ++ ss_objs x) -> n_val (a_now a) (owner h (o_handle o)) (o_handle o) ty = Some v -> api_reads (w_oe w) o ty v).
Proof.
  intros w d l s os L D M F Td R. destruct (run_archiving w L d l 0 (sys0 d) archive0 s os (od_0 w True d D) M Td (asim0 w d D) R F) as (a & m & T & [[_ V] _] & O & Lm).
  destruct (orderly_kept w True (l_hash _ L) _ _ _ O) as [G _]; [lia|]. exists a. split; [exact T|]. intros h x o ty v X J K.
  assert (P : exists k, In o (place s k) /\ (k = None \/ k = Some h)) by (apply in_app_or in J as [J|J]; [exists None|exists (Some h)]; cbn [place]; [auto|]; unfold objs_of; rewrite X; auto).
  destruct P as (k & P1 & P2). rewrite (region m s k o h G ltac:(lia) P1 P2) in K. destruct (V k o ty v P1 K) as (A & B & C & E). apply field_reads; assumption.
Qed.
Print Assumptions C124_follows.

(** *** What was last written is read after restarts *)
(** The call neither removes token object [ho] nor writes its attribute [ty]. *)
Definition leaves (ho ty : Z) (c : op) : Prop :=
  match c with
  | ODestroyObject _ ho' => ho' <> ho
  | OInitToken _ _ _ => False
  | OSetAttributeValue _ ho' t => ho' <> ho \/ Forall (fun a => a_type a <> ty /\ (ty = CKA_WRAP -> a_type a <> CKA_UNWRAP)) t
  | _ => True
  end.
Definition no_token_set (c : op) : Prop := match c with OSetAttributeValue _ ho _ => (ho < 2^28)%Z | _ => True end.
Definition known (strict : bool) (ho ty : Z) (v : list N) (a : archive) : Prop :=
  ((0 < count a)%Z -> In ho (b_tok (n_tab (a_now a))) /\ n_val (a_now a) None ho ty = Some v /\ (strict = true -> a_clean a = true)) /\
  ((count a <= 0)%Z -> exists l g, a_saved a = Some (l, g) /\ In ho l /\ g ho ty = Some v).
Lemma put_new_tok b h t k ho : In ho (b_tok b) -> In ho (b_tok (put_new b h t k)).
Proof. intros I. unfold put_new. destruct (wants_token t); [right|]; exact I. Qed.
Lemma leaves_tok st b c o ho ty : leaves ho ty c -> DurableProofs.lib_op c = false -> In ho (b_tok b) -> In ho (b_tok (table_next st b c o)).
Proof.
  intros Lv Lo I. destruct c; try discriminate Lo; cbn [table_next makes]; try exact I; try (exfalso; exact Lv).
  all: try (match goal with x : out |- _ => destruct x; try exact I; destruct (_ =? _)%Z; try exact I; repeat apply put_new_tok; exact I end).
  all: destruct (_ =? _)%Z; try exact I. cbn [b_tok]. unfold without_h. apply filter_In. split; [exact I|]. cbn in Lv. destruct (Z.eqb_spec ho ho0); [congruence|reflexivity].
Qed.
Lemma known_step strict st a c o ho ty v : known strict ho ty v a -> leaves ho ty c -> ~ In ho (new_handles o) -> (2^28 <= ho)%Z ->
  (if strict then no_token_set c else c <> ORestart) -> known strict ho ty v (archive_next st a c o).
Proof.
  intros [K1 K2] Lv Nh Hi St. unfold known. destruct (reads a c) eqn:R.
  - destruct c; try discriminate R. cbn [reads] in R. destruct (K2 ltac:(lia)) as (l & g & Sa & Il & G). unfold count, archive_next, now_next. cbn [a_now a_saved a_clean reads]. rewrite R.
    unfold clean_next, recalled, found. cbn [reads]. rewrite R, Sa. unfold count in R. cbn [n_tab n_val notes_next table_next b_tok b_dev on_dev next]. rewrite R. cbn [b_tok b_dev d_count]. split; [auto|lia].
  - assert (Nn : now_next st a c o = notes_next (found st a) (a_now a) c o) by (unfold now_next; rewrite R; reflexivity).
    unfold count, archive_next. cbn [a_now a_saved a_clean]. rewrite Nn. destruct (DurableProofs.lib_op c) eqn:Lo.
    + destruct c; try discriminate Lo; unfold clean_next; rewrite ?R; cbn [unsaved saved_next n_tab n_val notes_next table_next memory_next]; unfold reads in R; fold (count a).
      * unfold count in *. rewrite R. cbn [b_dev on_dev next]. rewrite R. cbn [d_count]. split; [|intros; apply K2; lia]. intros C. destruct (K1 ltac:(lia)) as (A & B & D). split; [exact A|]. split; [exact B|].
        rewrite same_list_eq by reflexivity. exact D.
      * destruct (Z.eqb_spec (count a) 1) as [E|E].
        -- cbn [b_dev on_dev next]. unfold count in E. rewrite E. cbn. split; [lia|]. intros _. destruct (K1 ltac:(unfold count; lia)) as (A & B & D). do 2 eexists. split; [reflexivity|]. split; assumption.
        -- cbn [b_dev on_dev next]. unfold count in *. destruct (Z.eqb_spec (d_count (b_dev (n_tab (a_now a)))) 1); [contradiction|]. cbn [d_count]. split; [|intros; apply K2; lia]. intros C.
           destruct (K1 ltac:(lia)) as (A & B & D). split; [exact A|]. split; [exact B|]. rewrite same_list_eq by reflexivity. exact D.
      * destruct strict; [|congruence]. cbn. split; [lia|]. intros _. destruct (Z.leb_spec (count a) 0) as [C|C]; [apply K2; exact C|]. destruct (K1 C) as (A & B & D). rewrite D by reflexivity.
        do 2 eexists. split; [reflexivity|]. split; assumption.
    + assert (Ct : d_count (b_dev (n_tab (notes_next (found st a) (a_now a) c o))) = count a) by (cbn [notes_next n_tab]; rewrite next_dev; apply next_count; exact Lo). rewrite Ct.
      assert (Ks : saved_next a c = a_saved a) by (destruct c; try discriminate Lo; reflexivity). rewrite Ks. split; [|exact K2]. intros C. destruct (K1 C) as (A & B & D).
      split; [cbn [notes_next n_tab]; eapply leaves_tok; eassumption|]. split.
      * cbn [notes_next n_val]. rewrite spared_noted; [exact B| |exact Nh]. destruct c; try exact Logic.I; try discriminate Lo. cbn in Lv. destruct Lv; cbn; auto.
      * intros E. unfold clean_next. rewrite R. assert (U : unsaved c o = false). { subst strict. destruct c; try reflexivity. cbn in *. destruct (Z.leb_spec (2^28) ho0); [lia|reflexivity]. }
        rewrite U. destruct (same_list _ _); [apply D; exact E|reflexivity].
Qed.
Lemma known_archiving strict a cs os a' ho ty v : archiving a cs os a' -> known strict ho ty v a -> Forall (leaves ho ty) cs -> Forall (fun o => ~ In ho (new_handles o)) os -> (2^28 <= ho)%Z ->
  Forall (fun c => if strict then no_token_set c else c <> ORestart) cs -> known strict ho ty v a'.
Proof.
  induction 1 as [a|a c o st cs os a' Sy T IH]; intros K F1 F2 Hi F3; [exact K|]. inversion F1 as [|? ? A1 A2]; inversion F2 as [|? ? B1 B2]; inversion F3 as [|? ? D1 D2]; subst.
  apply IH; try assumption. apply known_step; assumption.
Qed.
(** Token handles are not those of session objects. *)
Lemma session_handle m s b h ho : good True m s -> (m < 2^28)%Z -> tsim s b -> In ho (b_of b h) -> (ho < 2^28)%Z.
Proof.
  intros G M T I. destruct T as (_ & _ & T). rewrite <- T in I. unfold handles in I. apply in_map_iff in I as (o & <- & I).
  pose proof (region m s (Some h) o h G M I (or_intror eq_refl)) as R. unfold owner in R. destruct (Z.leb_spec (2^28) (o_handle o)); [discriminate|assumption].
Qed.
Lemma made_listed b h t k : In k (b_tok (put_new b h t k)) \/ In k (b_of (put_new b h t k) h).
Proof. unfold put_new. destruct (wants_token t); [left; left; reflexivity|right]. cbn [b_of]. unfold with_of. rewrite Z.eqb_refl. left. reflexivity. Qed.
Lemma put_new_listed b h t k ho : In ho (b_of b h) -> In ho (b_of (put_new b h t k) h).
Proof. intros I. unfold put_new. destruct (wants_token t); [exact I|]. cbn [b_of]. unfold with_of. rewrite Z.eqb_refl. right. exact I. Qed.
Lemma longer (l : list Z) x : same_list (x :: l) l = false.
Proof. unfold same_list. destruct (list_eq_dec _ _ _) as [E|]; [|reflexivity]. apply (f_equal (@length _)) in E. cbn in E. lia. Qed.
Lemma wrote_known w m s' a c o h ho t ty v st strict : notes_say (a_now a) c o -> good True m s' -> (m < 2^28)%Z -> asim w s' (archive_next st a c o) -> wrote c o h ho t -> told t ty = Some v -> (2^28 <= ho)%Z ->
  (strict = true -> forall h ho t, c <> OSetAttributeValue h ho t) -> known strict ho ty v (archive_next st a c o).
Proof.
  intros Sy G M A W T Hi St. assert (Rd : reads a c = false) by (destruct W as [[-> _]|[(Mk & _)|(? & ? & ? & ? & ? & ? & -> & _)]]; try reflexivity; destruct c; try discriminate Mk; reflexivity).
  assert (Lo : DurableProofs.lib_op c = false) by (destruct W as [[-> _]|[(Mk & _)|(? & ? & ? & ? & ? & ? & -> & _)]]; try reflexivity; destruct c; try discriminate Mk; reflexivity).
  assert (Nn : now_next st a c o = notes_next (found st a) (a_now a) c o) by (unfold now_next; rewrite Rd; reflexivity).
  pose proof (wrote_noted (a_now a) c o h ho t ty v W T) as Wn. assert (Ow : owner h ho = None) by (unfold owner; destruct (Z.leb_spec (2^28) ho); [reflexivity|lia]). rewrite Ow in Wn.
  assert (Ct : count (archive_next st a c o) = count a) by (unfold count, archive_next; cbn [a_now]; rewrite Nn; cbn [notes_next n_tab]; rewrite next_dev; apply next_count; exact Lo).
  destruct Sy as ((Sd & Sn & Sm & Sp) & _).
  assert (On : (0 < count a)%Z /\ exists rw, d_mode (b_dev (n_tab (a_now a))) h = Some rw /\ (needs_rw c = true -> rw = true)).
  { assert (On : forall o P, on_session (b_dev (n_tab (a_now a))) h o P -> out_rv o = CKR_OK -> (0 < count a)%Z /\ exists rw, d_mode (b_dev (n_tab (a_now a))) h = Some rw /\ P rw).
    { intros o0 P K E. unfold on_session in K. fold (count a) in K. destruct (Z.leb_spec (count a) 0); [subst o0; discriminate E|]. split; [assumption|].
      destruct (d_mode _ h) as [rw|]; [eauto|subst o0; discriminate E]. }
    destruct W as [[-> ->]|[(Mk & _ & ->)|(? & ? & ? & ? & ? & ? & -> & -> & _)]]; cbn [says] in Sd.
    - destruct (On _ _ Sd eq_refl) as (A1 & rw & A2 & A3). split; [exact A1|]. exists rw. split; [exact A2|]. intros _. destruct rw; [reflexivity|discriminate A3].
    - destruct c; try discriminate Mk; injection Mk as -> ->; cbn [says] in Sd; destruct (On _ _ Sd eq_refl) as (A1 & rw & A2 & A3); (split; [exact A1|]); exists rw; (split; [exact A2|]); intros _;
        (destruct rw; [reflexivity|try discriminate A3]).
      all: destruct (Sm _ _ _ eq_refl eq_refl) as [Mo _]; rewrite A2 in Mo; discriminate Mo.
    - destruct (On _ _ Sd eq_refl) as (A1 & rw & A2 & A3). split; [exact A1|]. exists rw. split; [exact A2|discriminate]. }
  destruct On as (Cp & rw & Md & Rw).
  destruct A as ((Ts & _) & _). unfold archive_next in Ts. cbn [a_now] in Ts. rewrite Nn in Ts. cbn [notes_next n_tab] in Ts.
  assert (Tk : In ho (b_tok (table_next (found st a) (n_tab (a_now a)) c o)) /\ (strict = true -> same_list (b_tok (table_next (found st a) (n_tab (a_now a)) c o)) (b_tok (n_tab (a_now a))) = false)).
  { destruct W as [[-> ->]|[(Mk & NC & ->)|(k & tp & tq & g & h1 & h2 & -> & -> & W)]].
    - split; [|intros E; exfalso; exact (St E _ _ _ eq_refl)]. specialize (Sn h rw eq_refl Cp Md Rw). unfold lookup_says in Sn. cbn [names refusal] in Sn.
      cbn [table_next makes] in *. destruct (listed (n_tab (a_now a)) h ho) eqn:Li; [|discriminate Sn]. unfold listed in Li. apply existsb_exists in Li as (y & Y & E). apply Z.eqb_eq in E. subst y.
      apply in_app_or in Y as [Y|Y]; [exact Y|]. pose proof (session_handle m s' _ h ho G M Ts Y). lia.
    - assert (E : b_tok (table_next (found st a) (n_tab (a_now a)) c (OutH CKR_OK ho)) = b_tok (put_new (n_tab (a_now a)) h t ho) /\ b_of (table_next (found st a) (n_tab (a_now a)) c (OutH CKR_OK ho)) h = b_of (put_new (n_tab (a_now a)) h t ho) h).
      { destruct c; try discriminate Mk; injection Mk as -> ->; cbn [table_next makes]; change (CKR_OK =? CKR_OK)%Z with true; cbv iota; unfold put_new; destruct (wants_token t); split; reflexivity. }
      destruct E as [E1 E2]. destruct (wants_token t) eqn:Wt.
      + rewrite E1. unfold put_new. rewrite Wt. cbn [b_tok]. split; [left; reflexivity|]. intros _. apply longer.
      + exfalso. assert (In ho (b_of (table_next (found st a) (n_tab (a_now a)) c (OutH CKR_OK ho)) h)) as I.
        { rewrite E2. unfold put_new. rewrite Wt. cbn [b_of]. unfold with_of. rewrite Z.eqb_refl. left. reflexivity. }
        pose proof (session_handle m s' _ h ho G M Ts I). lia.
    - cbn [table_next] in *. change (CKR_OK =? CKR_OK)%Z with true in *. cbv iota in *. set (b1 := on_dev _ _) in *. pose proof (session_handle m s' _ h ho G M Ts) as Sh.
      destruct W as [(-> & _ & ->)|(-> & ->)].
      + destruct (wants_token t) eqn:Wt.
        * split; [apply put_new_tok; unfold put_new; rewrite Wt; left; reflexivity|]. intros _. unfold put_new at 1. destruct (wants_token tq) eqn:Wq; cbn [b_tok]; unfold put_new; rewrite Wt; cbn [b_tok]; [|apply longer].
          unfold same_list. destruct (list_eq_dec _ _ _) as [E|]; [|reflexivity]. apply (f_equal (@length _)) in E. cbn in E. lia.
        * exfalso. assert (I : In ho (b_of (put_new (put_new b1 h t ho) h tq h2) h)); [|specialize (Sh I); lia]. apply put_new_listed. unfold put_new. rewrite Wt. cbn [b_of]. unfold with_of. rewrite Z.eqb_refl. left. reflexivity.
      + destruct (wants_token t) eqn:Wt.
        * split; [unfold put_new at 1; rewrite Wt; left; reflexivity|]. intros _. unfold put_new at 1. rewrite Wt. cbn [b_tok]. unfold put_new. destruct (wants_token tp); cbn [b_tok]; [|apply longer].
          unfold same_list. destruct (list_eq_dec _ _ _) as [E|]; [|reflexivity]. apply (f_equal (@length _)) in E. cbn in E. lia.
        * exfalso. assert (I : In ho (b_of (put_new (put_new b1 h tp h1) h t ho) h)); [|specialize (Sh I); lia]. unfold put_new at 1. rewrite Wt. cbn [b_of]. unfold with_of. rewrite Z.eqb_refl. left. reflexivity. }
  unfold known. rewrite Ct. split; [|lia]. intros _. unfold archive_next. cbn [a_now a_clean]. rewrite Nn. cbn [notes_next n_tab n_val]. split; [apply Tk|]. split; [exact Wn|].
  intros E. unfold clean_next. rewrite Rd. assert (U : unsaved c o = false) by (destruct c; try reflexivity; exfalso; exact (St E _ _ _ eq_refl)). rewrite U. destruct Tk as [_ Tk]. specialize (Tk E). cbn [notes_next n_tab]. rewrite Tk. reflexivity.
Qed.
Lemma archiving_app cs : forall b os cs' os' b', length cs = length os -> archiving b (cs ++ cs') (os ++ os') b' -> exists b1, archiving b cs os b1 /\ archiving b1 cs' os' b'.
Proof.
  induction cs as [|c cs IH]; intros b [|o os] cs' os' b' Le T; try discriminate; cbn in T.
  - exists b. split; [constructor|exact T].
  - inversion T as [|? ? ? st ? ? ? Sy T' E1 E2 E3]. subst. destruct (IH _ os cs' os' b' ltac:(cbn in Le; congruence) T') as (b1 & A & B). exists b1. split; [econstructor; eauto|exact B].
Qed.
Theorem C124_survives : forall w d l1 c1 r1 l2 h2 r2 s os1 o1 os2 o h ho t ty v buf, laws (w_se w) -> d (F_TOKEN, 0%nat) = None ->
  let l := l1 ++ (c1, r1) :: l2 ++ [(OGetAttributeValue h2 ho [mkA ty (AV buf)], r2)] in
  run w (sys0 d) l = Ok (s, os1 ++ o1 :: os2 ++ [o]) -> length os1 = length l1 -> length os2 = length l2 ->
  tidy_run w (sys0 d) l -> (2 * zlen l < 2^28)%Z -> Forall (fun c => bool_call (fst c)) l ->
  (* value [v] is written into an attribute of a token object; *)
  wrote c1 o1 h ho t -> told t ty = Some v -> (2^28 <= ho)%Z ->
  (* the attribute is not written again, the object not destroyed; *)
  Forall (fun c => leaves ho ty (fst c)) l2 -> Forall (fun o => ~ In ho (new_handles o)) os2 ->
  (* either every process since then calls C_Finalize, or the object was made then and no attributes of token objects are set since; *)
  (Forall (fun c => fst c <> ORestart) l2 \/ ((forall h ho t, c1 <> OSetAttributeValue h ho t) /\ Forall (fun c => no_token_set (fst c)) l2)) ->
  (* then, whatever the other calls and restarts, reading it through any open session gives the value. *)
  zlen buf = zlen v -> In o [OutT CKR_OK [mkA ty (AV v)]; OutRv CKR_SESSION_HANDLE_INVALID; OutRv CKR_CRYPTOKI_NOT_INITIALIZED].
Proof.
  intros w d l1 c1 r1 l2 h2 r2 s os1 o1 os2 o h ho t ty v buf L D l R Le1 Le2 Td M F W T Hi Lv Nh Alt Lb. subst l.
  pose proof (Forall_app (fun c => bool_call (fst c)) l1 ((c1, r1) :: l2 ++ [(OGetAttributeValue h2 ho [mkA ty (AV buf)], r2)])) as [Fa _]. destruct (Fa F) as [F1 F2]. clear Fa.
  apply run_split in R as (s1 & os1' & osr & R1 & R2 & Eo & Le1'). assert (os1' = os1 /\ osr = o1 :: os2 ++ [o]) as [-> ->].
  { clear - Eo Le1 Le1'. revert os1' Eo Le1'. rewrite <- Le1. generalize (o1 :: os2 ++ [o]). clear. intros r os1'. revert os1. induction os1' as [|x q IH]; intros [|y p] E Le; try discriminate; cbn in *; [auto|].
    injection E as -> E. destruct (IH p E) as [-> ->]; [congruence|auto]. }
  clear Eo Le1'. destruct (tidy_run_app _ _ _ _ _ _ Td R1) as [Td1 Td2].
  assert (Lm : (2 * (zlen l1 + (zlen l2 + 2)) < 2^28)%Z) by (unfold zlen in *; rewrite app_length in M; cbn [length] in M; rewrite app_length in M; cbn [length] in M; lia). clear M.
  assert (P1 : (0 <= zlen l1)%Z) by (unfold zlen; lia). assert (P2 : (0 <= zlen l2)%Z) by (unfold zlen; lia).
  destruct (run_archiving w L d l1 0 (sys0 d) archive0 s1 os1 (od_0 w True d D) ltac:(lia) Td1 (asim0 w d D) R1 F1) as (a1 & m1 & _ & A1 & O1 & M1).
  inversion F2 as [|? ? Fc F3]. subst. cbn [fst] in Fc. cbn [run] in R2. cbn [tidy_run] in Td2. destruct (step w r1 s1 c1) as [[s2 o2]| |] eqn:E; cbn [bind] in R2; try discriminate.
  destruct (run _ s2 _) as [[s3 os3]| |] eqn:R3; cbn [bind] in R2; try discriminate. assert (o2 = o1 /\ os3 = os2 ++ [o]) as [-> ->] by (split; congruence). clear R2.
  destruct Td2 as [Td2 Td3]. assert (Td2' : tidy w s2) by (destruct l2 as [|[? ?] ?]; apply Td3).
  pose proof (uses_two c1) as U2. pose proof (uses_pos c1) as U0. pose proof (orderly_pos _ _ _ _ _ O1) as P.
  assert (O2 : orderly w True d (m1 + uses c1) s2) by (econstructor; [exact O1|exact E|apply usual_bytes, bool_usual; exact Fc]).
  destruct (orderly_kept w True (l_hash _ L) _ _ _ O1) as [G1 _]; [lia|]. destruct (orderly_kept w True (l_hash _ L) _ _ _ O2) as [G2 _]; [lia|].
  destruct (C124_step w L m1 (m1 + uses c1) r1 s1 a1 c1 s2 o1 (reach_inv w _ _ (orderly_reach _ _ _ _ _ O1)) G1 P ltac:(lia) G2 ltac:(lia)
    (reach_ginv w (l_hash _ L) _ _ (orderly_reach _ _ _ _ _ O1)) (reach_ginv w (l_hash _ L) _ _ (orderly_reach _ _ _ _ _ O2)) Td2 Td2' Fc A1 E) as (Sy & st & A2).
  assert (Lr : (m1 + uses c1 + 2 * zlen (l2 ++ [(OGetAttributeValue h2 ho [mkA ty (AV buf)], r2)]) < 2^28)%Z) by (unfold zlen in *; rewrite app_length; cbn [length]; lia).
  destruct (run_archiving w L d _ _ _ _ _ _ O2 Lr Td3 A2 R3 F3) as (a3 & _ & N & _).
  rewrite map_app in N. cbn [map fst] in N. apply archiving_app in N as (a2 & N2 & N3); [|rewrite map_length; congruence]. inversion N3 as [|? ? ? st2 ? ? ? Sy2 _]. subst.
  assert (Kn : exists strict, known strict ho ty v a2).
  { assert (Fm : forall P : op -> Prop, Forall (fun c => P (fst c)) l2 -> Forall P (map fst l2)) by (intros P0 Fp; rewrite Forall_map; exact Fp).
    destruct Alt as [Nr|[Nc Ns]].
    - exists false. eapply (known_archiving false); [exact N2| |apply Fm; exact Lv|exact Nh|exact Hi|apply (Fm (fun c => c <> ORestart)); exact Nr].
      eapply (wrote_known w (m1 + uses c1) s2); try eassumption; [lia|discriminate].
    - exists true. eapply (known_archiving true); [exact N2| |apply Fm; exact Lv|exact Nh|exact Hi|apply (Fm no_token_set); exact Ns].
      eapply (wrote_known w (m1 + uses c1) s2); try eassumption; [lia|intros _; exact Nc]. }
  destruct Kn as (strict & K1 & _). destruct Sy2 as ((Sd & Sn & _) & Sa). cbn [says] in Sd. unfold on_session in Sd. fold (count a2) in *. destruct (Z.leb_spec (count a2) 0) as [C|C]; [cbn; auto 6|].
  destruct (d_mode (b_dev (n_tab (a_now a2))) h2) as [rw|] eqn:Md; [|cbn; auto 6]. destruct (K1 C) as (I1 & I2 & _). left. symmetry.
  assert (Ow : owner h2 ho = None) by (unfold owner; destruct (Z.leb_spec (2^28) ho); [reflexivity|lia]).
  apply (Sa h2 ho _ rw _ eq_refl C Md).
  - unfold listed. apply existsb_exists. exists ho. split; [apply in_or_app; left; exact I1|apply Z.eqb_refl].
  - rewrite Ow. cbn [answer a_type a_val]. rewrite I2. cbn [filled]. rewrite Lb, Z.eqb_refl. reflexivity.
Qed.
Print Assumptions C124_survives.

(** ** A history with a restart through C_Finalize and one without *)
Fixpoint tidy_runb (w : world) (s : sys) (l : list (op * (nat -> list N))) : bool :=
  andb (PropDurable.tidyb w s) (match l with [] => true | (c, r) :: l' => match step w r s c with Ok (s1, _) => tidy_runb w s1 l' | _ => true end end).
Lemma tidy_runb_ok w l : forall s, tidy_runb w s l = true -> tidy_run w s l.
Proof.
  induction l as [|[c r] l IH]; intros s B; cbn [tidy_runb tidy_run] in *; apply andb_prop in B as [B1 B2]; (split; [apply PropDurable.tidyb_ok; exact B1|]); [exact Logic.I|].
  destruct (step w r s c) as [[s1 o1]| |]; [apply IH; exact B2|exact Logic.I..].
Qed.
Definition restarts : list op := setup ++
  [OOpenSession 1 RW; userlogin upin; OCreateObject H2 (named [65; 66]%N (tokenly aes_tmpl)); OSetAttributeValue H2 (2^28 + 1) [mkA CKA_ID (AV [9]%N)]; OFinalize; OInitialize;
   OOpenSession 1 RW; OGetAttributeValue H2 (2^28 + 1) [mkA CKA_LABEL (room 2); mkA CKA_ID (room 1)]; userlogin upin; OCreateObject H2 (named [67]%N (tokenly aes_tmpl)); OCreateObject H2 aes_tmpl;
   OSetAttributeValue H2 1 [mkA CKA_ID (AV [8]%N)]; ORestart; OInitialize; OOpenSession 1 RW; OGetAttributeValue H2 (2^28 + 2) [mkA CKA_LABEL (room 1)];
   OGetAttributeValue H2 (2^28 + 1) [mkA CKA_ID (room 1)]; OGetAttributeValue H2 1 [mkA CKA_ID (room 1)]].
Example C124_case : (exists s, run tw (sys0 nofiles) (numbered 1 restarts) = Ok (s, outs restarts)) /\ laws (w_se tw) /\ (2 * zlen (numbered 1 restarts) < 2^28)%Z /\
  Forall (fun c => bool_call (fst c)) (numbered 1 restarts) /\ tidy_run tw (sys0 nofiles) (numbered 1 restarts) /\
  skipn 9 (outs restarts) = [OutH CKR_OK (2^28 + 1); OutRv CKR_OK; OutRv CKR_OK; OutRv CKR_OK; OutH CKR_OK H2; OutT CKR_OK [mkA CKA_LABEL (AV [65; 66]%N); mkA CKA_ID (AV [9]%N)];
    OutRv CKR_OK; OutH CKR_OK (2^28 + 2); OutH CKR_OK 1; OutRv CKR_OK; OutRv CKR_OK; OutRv CKR_OK; OutH CKR_OK H2; OutT CKR_OK [mkA CKA_LABEL (AV [67]%N)]; OutT CKR_OK [mkA CKA_ID (AV [9]%N)];
    OutRv CKR_OBJECT_HANDLE_INVALID].
Proof.
  split; [exists (after restarts); vm_compute; reflexivity|]. split; [exact toy_laws|]. split; [vm_compute; reflexivity|].
  split; [apply bool_calls; vm_compute; reflexivity|]. split; [apply tidy_runb_ok; vm_compute; reflexivity|]. vm_compute. reflexivity.
Qed.
(** What the machine knows after each of the last calls of the processes. *)
Fixpoint archived (a : archive) (cs : list op) (os : list out) : archive :=
  match cs, os with c :: cs, o :: os => archived (archive_next [] a c o) cs os | _, _ => a end.
Definition summary (a : archive) : Z * bool * list Z * list (option (list N)) * option (list Z) :=
  let f ho ty := n_val (a_now a) None (2^28 + ho)%Z ty in
  (count a, a_clean a, b_tok (n_tab (a_now a)), [f 1%Z CKA_LABEL; f 1%Z CKA_ID; f 2%Z CKA_LABEL], option_map fst (a_saved a)).
Example C124_known :
  let a n := summary (archived archive0 (firstn n restarts) (firstn n (outs restarts))) in
  [a 11; a 12; a 14; a 19; a 20; a 23]%nat =
  [(1%Z, false, [2^28 + 1]%Z, [Some [65; 66]%N; Some [9]%N; None], Some []); (0%Z, true, [], [Some [65; 66]%N; Some [9]%N; None], Some [2^28 + 1]%Z);
   (1%Z, true, [2^28 + 1]%Z, [Some [65; 66]%N; Some [9]%N; None], Some [2^28 + 1]%Z); (1%Z, true, [2^28 + 2; 2^28 + 1]%Z, [Some [65; 66]%N; Some [9]%N; Some [67]%N], Some [2^28 + 1]%Z);
   (0%Z, true, [], [Some [65; 66]%N; Some [9]%N; Some [67]%N], Some [2^28 + 2; 2^28 + 1]%Z); (1%Z, true, [2^28 + 2; 2^28 + 1]%Z, [Some [65; 66]%N; Some [9]%N; Some [67]%N], Some [2^28 + 2; 2^28 + 1]%Z)].
Proof. vm_compute. reflexivity. Qed.
(** The hypotheses of C124_survives: the id of the first key, set before C_Finalize and read after C_Initialize; the label of the second, made
    in a process that just ends, read in the next. *)
Example C124_survives_case :
  (let c := nth 10 restarts OInitialize in let l2 := firstn 2 (skipn 11 restarts) in
   wrote c (nth 10 (outs restarts) (OutRv 1)) H2 (2^28 + 1) [mkA CKA_ID (AV [9]%N)] /\ told [mkA CKA_ID (AV [9]%N)] CKA_ID = Some [9]%N /\
   Forall (leaves (2^28 + 1) CKA_ID) l2 /\ Forall (fun c => c <> ORestart) l2 /\ In OFinalize l2 /\ In OInitialize l2) /\
  (let c := nth 16 restarts OInitialize in let l2 := firstn 5 (skipn 17 restarts) in
   wrote c (nth 16 (outs restarts) (OutRv 1)) H2 (2^28 + 2) (named [67]%N (tokenly aes_tmpl)) /\ told (named [67]%N (tokenly aes_tmpl)) CKA_LABEL = Some [67]%N /\
   Forall (leaves (2^28 + 2) CKA_LABEL) l2 /\ (forall h ho t, c <> OSetAttributeValue h ho t) /\ Forall no_token_set l2 /\ In ORestart l2).
Proof.
  cbv zeta. split.
  - split; [left; split; vm_compute; reflexivity|]. split; [vm_compute; reflexivity|].
    match goal with |- context [Forall _ ?l] => let r := eval vm_compute in l in change l with r end. repeat split; try (repeat constructor; discriminate); cbn; auto 6.
  - split; [right; left; split; [vm_compute; reflexivity|split; [intros k K; vm_compute in K; discriminate K|vm_compute; reflexivity]]|]. split; [vm_compute; reflexivity|].
    match goal with |- context [Forall _ ?l] => let r := eval vm_compute in l in change l with r end.
    split; [repeat (constructor; [first [exact Logic.I|left; discriminate]|]); constructor|]. split; [intros h ho t K; vm_compute in K; discriminate K|].
    split; [repeat (constructor; [first [exact Logic.I|reflexivity]|]); constructor|cbn; auto 8].
Qed.
