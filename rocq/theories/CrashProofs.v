(** Interrupted storing and truncated files. *)
From Verif Require Import Base Codec CodecProofs Ops Object Store StoreSpec StoreProofs.

Definition good {A} (rd : list N -> res (A * list N)) : Prop := stable rd /\ clean rd.
Lemma bind_good {A B} (rd : list N -> res (A * list N)) (k : A -> list N -> res (B * list N)) :
  good rd -> (forall a, good (k a)) -> good (fun f => '(v, r) <- rd f ;; k v r).
Proof. intros [S C] K. split; [apply bind_stable|apply bind_clean]; auto; intros a; apply K. Qed.
Lemma ret_good {A} (a : A) : good (fun f => Ok (a, f)).
Proof. split; [apply ret_stable|apply ret_clean]. Qed.
Lemma read_good n : good (st_read n).
Proof. split; [apply st_read_stable|apply st_read_clean]. Qed.
Lemma ulong_good : good r_ulong.
Proof. split; [apply r_ulong_stable|apply r_ulong_clean]. Qed.
Lemma word32_good : good r_word32.
Proof. split; [apply r_word32_stable|apply r_word32_clean]. Qed.
Lemma int_good : good r_int.
Proof. split; [apply r_int_stable|apply r_int_clean]. Qed.
Lemma time_good : good r_time.
Proof. split; [apply r_time_stable|apply r_time_clean]. Qed.
Lemma bool_good : good r_bool.
Proof. split; [apply r_bool_stable|apply r_bool_clean]. Qed.
Lemma alloc_good : good r_alloc.
Proof. split; [apply r_alloc_stable|apply r_alloc_clean]. Qed.
Lemma array_good n : good (r_array n).
Proof. split; [apply r_array_stable|apply r_array_clean]. Qed.
Lemma fixed_good n : good (r_fixed n).
Proof. exact (read_good n). Qed.
#[global] Hint Resolve ret_good read_good ulong_good word32_good int_good time_good bool_good alloc_good array_good fixed_good : good.
Ltac gd := repeat (match goal with
  | |- good (fun f => bind (?rd f) (fun x => let '(v, r) := x in @?k v r)) => apply (bind_good rd k); [auto with good|intros ?; cbv beta]
  end); auto with good.
Lemma pin_good : good read_pin.
Proof. unfold read_pin. gd. Qed.
#[global] Hint Resolve pin_good : good.
Lemma types_good n : good (read_types n).
Proof.
  induction n as [|n IH]; cbn [read_types]; [apply ret_good|]. 
  apply (bind_good r_ulong (fun ty f => '(l, f) <- read_types n f ;; Ok (ty :: l, f))); [auto with good|]. intros a.
  apply (bind_good (read_types n) (fun l f => Ok (a :: l, f))); auto with good.
Qed.
#[global] Hint Resolve types_good : good.
Lemma tok_good : good read_tok_file.
Proof. unfold read_tok_file. gd. Qed.
Lemma obj_good uid ty : good (read_obj_file uid ty).
Proof. unfold read_obj_file. gd. Qed.
Lemma key_good se o : good (read_key_file se o).
Proof.
  unfold read_key_file. apply (bind_good r_alloc (fun kd f1 => let o1 := set_store o (o_iv o) (Some kd) (o_enc o) in
    if andb (negb (is_cert o)) (o_type o =? CKK_DH)%Z then
      '(der, f2) <- r_alloc f1 ;; let '(c, (p, g)) := se_dh_dec se der in
      if negb (c =? 0)%Z then Err c else Ok (set_data o1 (KDh p g 0 (zeros DH_BUF)), f2)
    else Ok (o1, f1))); [auto with good|]. intros kd. cbv zeta. destruct (andb _ _); [|auto with good].
  apply (bind_good r_alloc (fun der f2 => let '(c, (p, g)) := se_dh_dec se der in
      if negb (c =? 0)%Z then Err c else Ok (set_data (set_store o (o_iv o) (Some kd) (o_enc o)) (KDh p g 0 (zeros DH_BUF)), f2))); [auto with good|].
  intros der. destruct (se_dh_dec se der) as [c [p g]]. destruct (negb _); [|auto with good]. split; [apply err_stable|apply err_clean].
Qed.

(** A file whose strict prefixes all fail to load. *)
Lemma good_prefix {A} (rd : list N -> res (A * list N)) f v : good rd -> rd f = Ok (v, []) ->
  forall k, (k < length f)%nat -> exists e, rd (firstn k f) = Err e.
Proof.
  intros [S C] E k K. apply (stable_prefix_fails rd f v S C E _ (skipn k f)); [symmetry; apply firstn_skipn|].
  intros Q. apply (f_equal (@length _)) in Q. rewrite skipn_length in Q. cbn in Q. lia.
Qed.

(** ** What a store touches *)
Section E.
Variable se : senv.
Definition at_id (id : nat) (w : wop) : Prop := fst (wname w) <> F_TOKEN /\ snd (wname w) = id.
Lemma store_kd_names key k id o c o' ws : k <> F_TOKEN -> store_kd se key (k, id) o = Ok (c, o', ws) -> Forall (at_id id) ws.
Proof.
  intros K H. unfold store_kd in H.
  match type of H with bind ?r _ = _ => destruct r as [[c1 o1]| |]; cbn [bind] in H; try discriminate end.
  destruct (negb _); [injection H as _ _ <-; repeat constructor; assumption|].
  destruct (w_array _ _); cbn [bind] in H; try discriminate. injection H as _ _ <-. repeat constructor; assumption.
Qed.
Lemma store_key_names key id o c o' ws : store_key se key id o = Ok (c, o', ws) -> Forall (at_id id) ws.
Proof.
  unfold store_key. intros H. destruct (is_cert o).
  - destruct (as_cert o) as [[l b]| |]; cbn [bind] in H; try discriminate. destruct (_ <=? _)%Z; [injection H as _ _ <-; constructor|].
    destruct (w_array _ _); cbn [bind] in H; try discriminate. injection H as _ _ <-. repeat constructor; discriminate.
  - destruct (key_kind o) as [k|] eqn:E; [|injection H as _ _ <-; constructor]. apply key_kind_not in E as [E _].
    destruct (_ =? _)%Z; [|eapply store_kd_names; eauto].
    destruct (store_kd _ _ _ _) as [[[c1 o1] ws1]| |] eqn:K; cbn [bind] in H; try discriminate. apply store_kd_names in K; [|exact E].
    destruct (negb _); [injection H as _ _ <-; exact K|]. destruct (as_dh o1) as [[[[p g] l] b]| |]; cbn [bind] in H; try discriminate.
    destruct (se_dh_der _ _ _) as [c2 der]. destruct (_ <? _)%Z; [injection H as _ _ <-; exact K|].
    destruct (w_array _ _); cbn [bind] in H; try discriminate. injection H as _ _ <-. apply Forall_app. split; [exact K|]. repeat constructor; assumption.
Qed.
Lemma store_obj_names key r id o c o' ws : store_obj se key r id o = Ok (c, o', ws) -> Forall (at_id id) ws.
Proof.
  unfold store_obj. intros H. destruct (obj_header o); cbn [bind] in H; try discriminate. cbv zeta in H.
  destruct (store_key _ _ _ _) as [[[c2 o2] ws2]| |] eqn:K; cbn [bind] in H; try discriminate. injection H as _ _ <-. apply store_key_names in K.
  repeat constructor; try discriminate. exact K.
Qed.
Lemma store_objs_names key r l : forall c l' ws, store_objs se key r l = Ok (c, l', ws) -> Forall (fun w => fst (wname w) <> F_TOKEN /\ (snd (wname w) < length l)%nat) ws.
Proof.
  induction l as [|o l IH]; cbn [store_objs length]; intros c l' ws H; [injection H as _ _ <-; constructor|].
  destruct (store_obj _ _ _ _ _) as [[[c1 o1] ws1]| |] eqn:S; cbn [bind] in H; try discriminate. apply store_obj_names in S.
  assert (S' : Forall (fun w => fst (wname w) <> F_TOKEN /\ (snd (wname w) < Datatypes.S (length l))%nat) ws1).
  { eapply Forall_impl; [|exact S]. intros w [A B]. split; [exact A|]. rewrite B. lia. }
  destruct (negb _); [injection H as _ _ <-; exact S'|].
  destruct (store_objs _ _ _ _) as [[[c2 r1] ws2]| |] eqn:R; cbn [bind] in H; try discriminate. injection H as _ _ <-. apply Forall_app. split; [exact S'|].
  eapply Forall_impl; [|eapply IH; reflexivity]. intros w [A B]. split; [exact A|lia].
Qed.
Lemma Token_Store_ops r t c t' ws : Token_Store se r t = Ok (c, t', ws) -> exists h rest, tok_header t = Ok h /\
  ws = WOpen (F_TOKEN, 0%nat) :: WWrite (F_TOKEN, 0%nat) h :: rest /\
  Forall (fun w => fst (wname w) <> F_TOKEN /\ (snd (wname w) < length (t_objs t))%nat) rest.
Proof.
  unfold Token_Store. destruct (tok_header t) as [h| |]; cbn [bind]; try discriminate.
  destruct (store_objs _ _ _ _) as [[[c2 l] ws2]| |] eqn:R; cbn [bind]; try discriminate. intros [= _ _ <-].
  exists h, ws2. split; [reflexivity|]. split; [reflexivity|]. eapply store_objs_names; eauto.
Qed.
Lemma crash_other d ws d' g : crash d ws d' -> Forall (fun w => wname w <> g) ws -> d' g = d g.
Proof.
  intros C. induction C as [d l|d f b k l|d w l d' C IH]; intros F; [reflexivity| |].
  - inversion F as [|? ? F1 _]. cbn in *. apply fs_set_other. congruence.
  - inversion F as [|? ? F1 F2]. subst. rewrite IH by exact F2. destruct w; cbn in *; apply fs_set_other; congruence.
Qed.
Lemma crash_token d h rest d' : Forall (fun w => fst (wname w) <> F_TOKEN) rest ->
  crash d (WOpen (F_TOKEN, 0%nat) :: WWrite (F_TOKEN, 0%nat) h :: rest) d' ->
  d' = d \/ (exists k, (k < length h)%nat /\ d' (F_TOKEN, 0%nat) = Some (firstn k h)) \/ d' (F_TOKEN, 0%nat) = Some h \/ (d' (F_TOKEN, 0%nat) = Some [] /\ h = []).
Proof.
  intros F C. inversion C as [l|f b k l|w l d1 C1]; subst; [auto|].
  assert (D0 : fs_set d (F_TOKEN, 0%nat) [] (F_TOKEN, 0%nat) = Some []) by apply fs_set_same.
  assert (W : forall b, apply1 (apply1 d (WOpen (F_TOKEN, 0%nat))) (WWrite (F_TOKEN, 0%nat) b) (F_TOKEN, 0%nat) = Some b).
  { intros b. unfold apply1. rewrite fs_set_same, D0. reflexivity. }
  inversion C1 as [l|f b k l|w l d2 C2]; subst.
  - destruct h as [|a h]; [right; right; right; split; [exact D0|reflexivity]|]. right. left. exists 0%nat. split; [cbn; lia|exact D0].
  - pose proof (W (firstn k h)) as Wk.
    destruct (Nat.ltb_spec k (length h)) as [K|K]; [right; left; exists k; split; [exact K|exact Wk]|]. right. right. left. rewrite firstn_all2 in * by exact K. exact Wk.
  - right. right. left. rewrite (crash_other _ _ _ _ C2).
    + apply W.
    + eapply Forall_impl; [|exact F]. cbn. intros w N E. apply N. rewrite E. reflexivity.
Qed.
Lemma load_objs_types d l : forall uid r, load_objs se d uid l = Ok r -> map o_type r = l.
Proof.
  induction l as [|ty l IH]; cbn [load_objs]; intros uid r H; [injection H as <-; reflexivity|].
  destruct (load_obj _ _ _ _ _) as [o| |] eqn:O; cbn [bind] in H; try discriminate. destruct (load_objs _ _ _ _) as [r1| |] eqn:R; cbn [bind] in H; try discriminate.
  injection H as <-. cbn. f_equal; [|eapply IH; eauto]. unfold load_obj in O.
  destruct (open_read _ _); cbn [bind] in O; try discriminate. destruct (read_obj_file _ _ _) as [[o1 f1]| |] eqn:E; cbn [bind] in O; try discriminate.
  assert (T : o_type o1 = ty).
  { unfold read_obj_file in E. repeat match type of E with bind ?r _ = _ => destruct r as [[? ?]| |]; cbn [bind] in E; try discriminate end. injection E as <- _. reflexivity. }
  destruct (key_kind o1); [|discriminate]. destruct (open_read _ _); cbn [bind] in O; try discriminate.
  destruct (read_key_file _ _ _) as [[o2 f2]| |] eqn:K; cbn [bind] in O; try discriminate. injection O as <-. rewrite <- T.
  unfold read_key_file in K. destruct (r_alloc _) as [[kd f3]| |]; cbn [bind] in K; try discriminate. destruct (andb _ _); [|injection K as <- _; reflexivity].
  destruct (r_alloc f3) as [[der f4]| |]; cbn [bind] in K; try discriminate. destruct (se_dh_dec _ _) as [c [p g]]. destruct (negb _); [discriminate|]. injection K as <- _. reflexivity.
Qed.

(** Loading after an interrupted store. *)
Theorem crash_load r t c t' ws d d' uid : wf_tok t -> Token_Store se r t = Ok (c, t', ws) -> crash d ws d' ->
  d' = d \/
  (exists tl, Token_Load se d' uid = Ok tl /\ t_label tl = t_label t /\ t_so tl = norm_pin (t_so t) /\ t_user tl = norm_pin (t_user t) /\
     t_seed tl = t_seed t /\ map o_type (t_objs tl) = map o_type (t_objs t)) \/
  Token_Load se d' uid = Ok (tok_init (zeros 32)) \/ (exists u, Token_Load se d' uid = Undef u).
Proof.
  intros W S C. destruct (tok_rt t W) as (h & Hh & Rt). apply Token_Store_ops in S as (h' & rest & Hh' & -> & F). rewrite Hh in Hh'. injection Hh' as <-.
  specialize (Rt []). rewrite app_nil_r in Rt.
  apply crash_token in C; [|eapply Forall_impl; [|exact F]; cbn; tauto]. destruct C as [C | [(k & K & C) | [C | [C E]]]]; [auto| | |].
  - right. right. left. unfold Token_Load. rewrite C. unfold load_all. destruct (good_prefix _ _ _ tok_good Rt k K) as (e & ->). reflexivity.
  - right. unfold Token_Load. rewrite C. unfold load_all. rewrite Rt. cbn [bind tf_types].
    destruct (load_objs se d' uid (map o_type (t_objs t))) as [l|e|u] eqn:L; cbn [bind]; eauto.
    left. eexists. split; [reflexivity|]. cbn. repeat (split; [reflexivity|]). apply load_objs_types in L. exact L.
  - subst h. exfalso. vm_compute in Rt. discriminate.
Qed.

(** ** Truncated files *)
(** The files of a token. *)
Definition file_of (t : token) (g : fname) : Prop :=
  g = (F_TOKEN, 0%nat) \/ exists l1 o l2, t_objs t = l1 ++ o :: l2 /\ (g = (F_OBJECT, length l2) \/ exists k, key_kind o = Some k /\ g = (k, length l2)).
Variable dh_law : forall p g, dh_der_ok se p g -> se_dh_dec se (snd (se_dh_der se p g)) = (0%Z, (p, g)).
Lemma trunc_obj d uid id o g b k : wf_obj o -> storable se o -> has_obj se d id o -> (g = (F_OBJECT, id) \/ g = (kkind o, id)) ->
  d g = Some b -> (k < length b)%nat -> exists e, load_obj se (fs_set d g (firstn k b)) uid (o_type o) id = Err e.
Proof.
  intros W S [(h & Hh & D1) D2] Hg Hb K. destruct (obj_rt _ W) as (h' & Hh' & R). rewrite Hh in Hh'. injection Hh' as <-.
  specialize (R uid []). rewrite app_nil_r in R. pose proof (storable_kind _ _ S) as KK. pose proof (key_kind_not _ _ KK) as [_ N].
  unfold load_obj, open_read. destruct Hg as [-> | ->].
  - rewrite D1 in Hb. injection Hb as <-. rewrite fs_set_same. cbn [bind].
    destruct (good_prefix _ _ _ (obj_good uid (o_type o)) R k K) as (e & ->). cbn [bind]. eauto.
  - rewrite D2 in Hb. injection Hb as <-. rewrite fs_set_other by congruence. rewrite D1. cbn [bind]. rewrite R. cbn [bind].
    change (key_kind (blank uid o)) with (key_kind o). rewrite KK, fs_set_same. cbn [bind].
    destruct (good_prefix _ _ _ (key_good se (blank uid o)) (kfile_rt se dh_law uid o S) k K) as (e & ->). cbn [bind]. eauto.
Qed.
Lemma trunc_objs d l1 o l2 g b k : Forall wf_obj (l1 ++ o :: l2) -> Forall (storable se) (l1 ++ o :: l2) -> has_objs se d (l1 ++ o :: l2) ->
  (g = (F_OBJECT, length l2) \/ g = (kkind o, length l2)) -> d g = Some b -> (k < length b)%nat ->
  forall uid, exists e, load_objs se (fs_set d g (firstn k b)) uid (map o_type (l1 ++ o :: l2)) = Err e.
Proof.
  intros W S Ho Hg Hb K. induction l1 as [|a l1 IH]; cbn [app map load_objs]; intros uid; cbn [app] in W, S; inversion W as [|? ? W1 W2]; inversion S as [|? ? S1 S2]; subst.
  - rewrite map_length. destruct Ho as [Ho _]. destruct (trunc_obj d uid (length l2) o g b k W1 S1 Ho Hg Hb K) as (e & ->). cbn [bind]. eauto.
  - destruct Ho as [Ha Ho]. rewrite map_length.
    assert (Nx : forall kx, fs_set d g (firstn k b) (kx, length (l1 ++ o :: l2)) = d (kx, length (l1 ++ o :: l2))).
    { intros kx. apply fs_set_other. rewrite app_length. cbn [length]. destruct Hg as [-> | ->]; intros [= _ E]; lia. }
    rewrite (load_obj_ok se dh_law _ uid _ a W1 S1).
    + cbn [bind]. destruct (IH W2 S2 Ho (Datatypes.S uid)) as (e & ->). cbn [bind]. eauto.
    + destruct Ha as [(h & Hh & D1) D2]. split; [exists h; split; [exact Hh|]|]; rewrite Nx; assumption.
Qed.
Theorem trunc_load r t d0 : wf_tok t -> Forall (storable se) (t_objs t) -> exists ws, Token_Store se r t = Ok (0%Z, t, ws) /\
  forall g b k uid, file_of t g -> apply d0 ws g = Some b -> (k < length b)%nat ->
  Token_Load se (fs_set (apply d0 ws) g (firstn k b)) uid = Ok (tok_init (zeros 32)).
Proof.
  intros W S. pose proof W as W0. destruct (tok_rt _ W) as (h & Hh & R). specialize (R []). rewrite app_nil_r in R. destruct W as (_ & _ & _ & _ & _ & W).
  destruct (store_objs_ok se (t_key t) r _ W S) as (ws & E & N & H).
  unfold Token_Store. rewrite Hh, E. cbn [bind]. eexists. split; [destruct t; reflexivity|]. intros g b k uid Fg Hb K.
  set (ws0 := [WOpen (F_TOKEN, 0%nat); WWrite (F_TOKEN, 0%nat) h] ++ ws) in *.
  assert (Ht : apply d0 ws0 (F_TOKEN, 0%nat) = Some h).
  { unfold ws0. rewrite apply_app. rewrite apply_other by (intros w I Eq; destruct (N _ I) as [X _]; rewrite Eq in X; apply X; reflexivity).
    cbn [apply fold_left apply1]. rewrite !fs_set_same. reflexivity. }
  assert (Hos : has_objs se (apply d0 ws0) (t_objs t)) by (unfold ws0; rewrite apply_app; apply H).
  unfold Token_Load. destruct Fg as [-> | (l1 & o & l2 & El & Hg)].
  - rewrite Ht in Hb. injection Hb as <-. rewrite fs_set_same. unfold load_all. destruct (good_prefix _ _ _ tok_good R k K) as (e & ->). reflexivity.
  - assert (Hg' : g = (F_OBJECT, length l2) \/ g = (kkind o, length l2)).
    { destruct Hg as [Hg | (kx & Kx & Hg)]; [auto|]. right. rewrite Hg. unfold kkind. rewrite Kx. reflexivity. }
    assert (Ng : g <> (F_TOKEN, 0%nat)).
    { destruct Hg as [-> | (kx & Kx & ->)]; [discriminate|]. apply key_kind_not in Kx as [Kx _]. congruence. }
    rewrite fs_set_other by congruence. rewrite Ht. unfold load_all. rewrite R. cbn [bind tf_types]. rewrite El in *.
    destruct (trunc_objs _ l1 o l2 g b k W S Hos Hg' Hb K uid) as (e & ->). reflexivity.
Qed.
End E.
