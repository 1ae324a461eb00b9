(** Lemmas for C114 and C115: calls that have a session to themselves run as if uninterrupted, and
    uninterrupted they do what Ops.v says. *)
From Verif Require Import Base Cbc Ops SessRace.

Lemma upd_eq A (m : nat -> A) p x : upd m p x p = x.
Proof. unfold upd. rewrite Nat.eqb_refl. reflexivity. Qed.
Lemma upd_ne A (m : nat -> A) p q x : q <> p -> upd m p x q = m q.
Proof. unfold upd. intro H. destruct (Nat.eqb_spec q p); [contradiction|reflexivity]. Qed.

Section Serial.
Variable ev : env.
Variable objs : nat -> option keyobj.
Variable rz : bool.
Notation code := (code ev objs rz).
Notation run := run.
Notation move := (move ev objs rz).
Notation moves := (moves ev objs rz).

(** [g]: another thread is in a call on session [h]. *)
Definition taken (g : gst) (h : nat) : Prop := exists i c p, g_thr g i = Inside h c p.
(** No call begins on a session another call is running on. *)
Fixpoint apart (g : gst) (l : list ev_t) : Prop :=
  match l with
  | [] => True
  | e :: r => match e with Begin i h c => g_thr g i = Idle -> ~ taken g h | Go _ => True end /\ apart (move g e) r
  end.
(** The calls finished on session [h], first one first. *)
Definition calls_on (h : nat) (log : list (nat * part_call * outc)) : list (part_call * outc) :=
  map (fun e => (snd (fst e), snd e)) (rev (filter (fun e => fst (fst e) =? h) log)).
(** One call after the other. *)
Fixpoint serial (s : sst) (l : list part_call) : res (sst * list outc) :=
  match l with
  | [] => Ok (s, [])
  | c :: r => '(s1, o) <- run (code c) s ;; '(s2, os) <- serial s1 r ;; Ok (s2, o :: os)
  end.
Lemma serial_snoc s l c :
  serial s (l ++ [c]) = '(s1, os) <- serial s l ;; '(s2, o) <- run (code c) s1 ;; Ok (s2, os ++ [o]).
Proof.
  revert s. induction l as [|a l IH]; intro s; cbn [serial app bind].
  - destruct (run (code c) s) as [[? ?]|?|?]; reflexivity.
  - destruct (run (code a) s) as [[s1 o]|?|?]; cbn [bind]; try reflexivity. rewrite IH.
    destruct (serial s1 l) as [[s2 os]|?|?]; cbn [bind]; try reflexivity.
    destruct (run (code c) s2) as [[? ?]|?|?]; reflexivity.
Qed.
Lemma calls_on_cons h e log :
  calls_on h (e :: log) = calls_on h log ++ (if fst (fst e) =? h then [(snd (fst e), snd e)] else []).
Proof.
  unfold calls_on. cbn [filter]. destruct (fst (fst e) =? h); cbn [rev].
  - rewrite map_app. reflexivity.
  - rewrite app_nil_r. reflexivity.
Qed.

(** The state of session [h] is the one the finished calls leave, or the running call is on its way there. *)
Definition inv (f : nat -> sst) (g : gst) : Prop :=
  (forall i j h c p d q, g_thr g i = Inside h c p -> g_thr g j = Inside h d q -> i = j) /\
  (forall h, exists s,
     serial (f h) (map fst (calls_on h (g_log g))) = Ok (s, map snd (calls_on h (g_log g))) /\
     (~ taken g h -> g_sess g h = s) /\
     (forall i c p, g_thr g i = Inside h c p -> run p (g_sess g h) = run (code c) s)).

Lemma inv_move f g e :
  g_ub (move g e) = false -> inv f g ->
  match e with Begin i h c => g_thr g i = Idle -> ~ taken g h | Go _ => True end ->
  inv f (move g e).
Proof.
  unfold SessRace.move. destruct (g_ub g) eqn:U; [intros; assumption|]. destruct e as [i h c|i].
  - intros _ [I1 I2] HA. destruct (g_thr g i) as [|h0 c0 p0] eqn:T; [|split; assumption].
    specialize (HA eq_refl). split; cbn [g_thr g_sess g_log].
    + intros a b h' c1 p1 c2 p2 A B. unfold upd in A, B.
      destruct (Nat.eqb_spec a i) as [->|Na], (Nat.eqb_spec b i) as [->|Nb].
      * reflexivity.
      * injection A as <- <- <-. exfalso. apply HA. exists b, c2, p2. exact B.
      * injection B as <- <- <-. exfalso. apply HA. exists a, c1, p1. exact A.
      * exact (I1 a b h' c1 p1 c2 p2 A B).
    + intro h'. destruct (I2 h') as [s [S1 [S2 S3]]]. exists s. split; [exact S1|]. split.
      * intro N. apply S2. intros [a [c1 [p1 A]]]. apply N. exists a, c1, p1. cbn [g_thr]. rewrite upd_ne; [exact A|].
        intro Q. subst a. rewrite T in A. discriminate A.
      * intros a c1 p1 A. unfold upd in A. destruct (Nat.eqb_spec a i) as [->|Na].
        -- injection A as <- <- <-. rewrite (S2 HA). reflexivity.
        -- exact (S3 a c1 p1 A).
  - destruct (g_thr g i) as [|h c p] eqn:T; [intros _ I _; exact I|]. destruct p as [o|k].
    + intros _ [I1 I2] _. split; cbn [g_thr g_sess g_log].
      * intros a b h' c1 p1 c2 p2 A B. unfold upd in A, B.
        destruct (Nat.eqb_spec a i) as [->|Na]; [discriminate A|].
        destruct (Nat.eqb_spec b i) as [->|Nb]; [discriminate B|].
        exact (I1 a b h' c1 p1 c2 p2 A B).
      * intro h'. destruct (I2 h') as [s [S1 [S2 S3]]]. rewrite calls_on_cons. cbn [fst snd].
        destruct (Nat.eqb_spec h h') as [<-|Nh].
        -- assert (R := S3 i c (Ret o) T). cbn [SessRace.run] in R.
           exists (g_sess g h). rewrite !map_app. cbn [map fst snd].
           rewrite serial_snoc, S1. cbn [bind]. rewrite <- R. cbn [bind]. split; [reflexivity|]. split; [reflexivity|].
           intros a c1 p1 A. unfold upd in A. destruct (Nat.eqb_spec a i) as [->|Na]; [discriminate A|].
           exfalso. apply Na. exact (I1 a i h c1 p1 c (Ret o) A T).
        -- rewrite app_nil_r. exists s. split; [exact S1|]. split.
           ++ intro N. apply S2. intros [a [c1 [p1 A]]]. apply N. exists a, c1, p1. cbn [g_thr]. rewrite upd_ne; [exact A|].
              intro Q. subst a. rewrite T in A. injection A as Q _ _. contradiction.
           ++ intros a c1 p1 A. unfold upd in A. destruct (Nat.eqb_spec a i) as [->|Na]; [discriminate A|].
              exact (S3 a c1 p1 A).
    + destruct (k (g_sess g h)) as [[s' p']|z|u] eqn:K; [|discriminate|discriminate].
      intros _ [I1 I2] _. split; cbn [g_thr g_sess g_log].
      * intros a b h' c1 p1 c2 p2 A B. unfold upd in A, B.
        destruct (Nat.eqb_spec a i) as [->|Na], (Nat.eqb_spec b i) as [->|Nb].
        -- reflexivity.
        -- injection A as <- <- <-. exact (I1 i b h c (Act k) c2 p2 T B).
        -- injection B as <- <- <-. exact (I1 a i h c1 p1 c (Act k) A T).
        -- exact (I1 a b h' c1 p1 c2 p2 A B).
      * intro h'. destruct (I2 h') as [s [S1 [S2 S3]]]. exists s. split; [exact S1|].
        destruct (Nat.eqb_spec h h') as [<-|Nh].
        -- split.
           ++ intro N. exfalso. apply N. exists i, c, p'. cbn [g_thr]. apply upd_eq.
           ++ intros a c1 p1 A. rewrite upd_eq. unfold upd in A. destruct (Nat.eqb_spec a i) as [->|Na].
              ** injection A as <- <-. rewrite <- (S3 i c (Act k) T). cbn [SessRace.run]. rewrite K. reflexivity.
              ** exfalso. apply Na. exact (I1 a i h c1 p1 c (Act k) A T).
        -- rewrite upd_ne by (intro; subst; contradiction). split.
           ++ intro N. apply S2. intros [a [c1 [p1 A]]]. apply N. exists a, c1, p1. cbn [g_thr]. rewrite upd_ne; [exact A|].
              intro Q. subst a. rewrite T in A. injection A as Q _ _. contradiction.
           ++ intros a c1 p1 A. unfold upd in A. destruct (Nat.eqb_spec a i) as [->|Na].
              ** injection A as Q _ _. contradiction.
              ** exact (S3 a c1 p1 A).
Qed.

Lemma ub_stays l : forall g, g_ub g = true -> g_ub (moves g l) = true.
Proof.
  induction l as [|e l IH]; intros g H; [exact H|]. apply IH. unfold SessRace.move. rewrite H. exact H.
Qed.
Lemma inv_moves f l : forall g, inv f g -> apart g l -> g_ub (moves g l) = false -> inv f (moves g l).
Proof.
  induction l as [|e l IH]; intros g I A U; [exact I|]. destruct A as [A1 A2].
  apply (IH (move g e)); [|exact A2|exact U].
  apply inv_move; [|exact I|exact A1].
  destruct (g_ub (move g e)) eqn:Q; [|reflexivity].
  pose proof (ub_stays l _ Q) as Z. unfold SessRace.moves in *. cbn [fold_left] in U. rewrite Z in U. discriminate U.
Qed.
Lemma inv_begin f : inv f (begin f).
Proof.
  split.
  - intros i j h c p d q A. discriminate A.
  - intro h. exists (f h). split; [reflexivity|]. split; [reflexivity|]. intros i c p A. discriminate A.
Qed.

(** The first undefined step comes from a call that is undefined when run alone. *)
Lemma ub_from f l : forall g, inv f g -> apart g l -> g_ub g = false -> g_ub (moves g l) = true ->
  exists h cs c s os, serial (f h) cs = Ok (s, os) /\ (forall x, run (code c) s <> Ok x) /\
    exists l1 l2 i p, l = l1 ++ l2 /\ calls_on h (g_log (moves g l1)) = combine cs os /\ g_thr (moves g l1) i = Inside h c p.
Proof.
  induction l as [|e l IH]; intros g I A U U1.
  - cbn in U1. rewrite U in U1. discriminate U1.
  - destruct A as [A1 A2]. destruct (g_ub (move g e)) eqn:Q.
    + clear IH A2 U1. unfold SessRace.move in Q. rewrite U in Q. destruct e as [i h c|i].
      * destruct (g_thr g i); [discriminate Q|]. rewrite U in Q. discriminate Q.
      * destruct (g_thr g i) as [|h c p] eqn:T; [rewrite U in Q; discriminate Q|]. destruct p as [o|k]; [discriminate Q|].
        destruct I as [I1 I2]. destruct (I2 h) as [s [S1 [S2 S3]]].
        exists h, (map fst (calls_on h (g_log g))), c, s, (map snd (calls_on h (g_log g))).
        split; [exact S1|]. split.
        -- intros x R. rewrite <- (S3 i c (Act k) T) in R. cbn [SessRace.run] in R.
           destruct (k (g_sess g h)) as [[s' p']|z|u]; [discriminate Q|discriminate R|discriminate R].
        -- exists [], (Go i :: l), i, (Act k). split; [reflexivity|]. split; [|exact T].
           cbn [SessRace.moves fold_left]. clear. unfold SessRace.moves. cbn. induction (calls_on h (g_log g)) as [|[a b] r IH]; [reflexivity|]. cbn. rewrite <- IH. reflexivity.
    + destruct (IH (move g e)) as [h [cs [c [s [os [E1 [E2 [l1 [l2 [i [p [E3 [E4 E5]]]]]]]]]]]]].
      * apply inv_move; assumption.
      * exact A2.
      * exact Q.
      * exact U1.
      * exists h, cs, c, s, os. split; [exact E1|]. split; [exact E2|]. exists (e :: l1), l2, i, p.
        split; [rewrite E3; reflexivity|]. split; assumption.
Qed.
End Serial.

(** ** A call by itself does what Ops.v says *)
From Verif Require Import CbcProofs OpsSpec.
Local Ltac Zify.zify_post_hook ::= Z.div_mod_to_equations.

Definition at_ (s : sst) (p : cbc) : sst := with_op s (put_cbc (ss_op s) p).
Lemma at_self s p : get_cbc (ss_op s) = Ok p -> at_ s p = s.
Proof.
  unfold get_cbc, at_, put_cbc, with_op, set_part, set_params. destruct s as [[i m c pa q] e z me n]; cbn.
  destruct pa; try discriminate. injection 1 as <-. cbn. destruct q. reflexivity.
Qed.
Lemma get_at s p : get_cbc (ss_op (at_ s p)) = Ok p.
Proof. destruct p. reflexivity. Qed.
Lemma at_at s p q : at_ (at_ s p) q = at_ s q.
Proof. reflexivity. Qed.
Lemma run_rd_cbc A (f : cbc -> A) k s p : run (rd_cbc f k) (at_ s p) = run (k (f p)) (at_ s p).
Proof. cbn [run rd_cbc rd]. rewrite get_at. reflexivity. Qed.
Lemma run_wr_cbc f k s p :
  run (wr_cbc f k) (at_ s p) = match f p with Ok p' => run k (at_ s p') | Err e => Err e | Undef u => Undef u end.
Proof. cbn [run wr_cbc wr]. rewrite get_at. cbn [bind]. destruct (f p); reflexivity. Qed.
Lemma run_wr_psz z k s p : run (wr_psz z k) (at_ s p) = run k (at_ s (mkCbc (cb_aes p) (cb_partial p) (Z.to_nat z))).
Proof. unfold wr_psz. rewrite run_wr_cbc. reflexivity. Qed.
Lemma run_crypt_to crypt src room off out k kerr s p :
  run (crypt_to crypt src room off out k kerr) (at_ s p) =
  match crypt (cb_aes p) (src p) with
  | Ok (o, a) => if (room <? off + zlen (src p))%Z then Undef UB_write_overflow
                 else run (k (out ++ o)) (at_ s (mkCbc a (cb_partial p) (cb_psz p)))
  | Err _ => run kerr (at_ s p)
  | Undef u => Undef u
  end.
Proof.
  cbn [run crypt_to]. rewrite get_at. cbn [bind]. destruct (crypt (cb_aes p) (src p)) as [[o a]|e|u]; try reflexivity.
  destruct (room <? off + zlen (src p))%Z; reflexivity.
Qed.

Section Upd.
Variable crypt : aes -> list N -> res (list N * aes).
Variable clear : bool.
Variable full : Z -> list N -> bool.
Variable blk : list N -> nat.
Hypothesis crypt_ok : forall a d, length d mod 16 = 0 -> exists o a', crypt a d = Ok (o, a').
Hypothesis blk_mod : forall d, blk d mod 16 = 0.
Hypothesis blk_le : forall d, blk d <= length d.
Hypothesis blk_rest : forall d, length d - blk d <= 16.

Definition useq (p : cbc) (data : list N) : res (list N * cbc) :=
  '(out1, a1, part1, psz1, data1) <-
     (if 0 <? cb_psz p then
        let sz := Nat.min (BLK - cb_psz p) (length data) in
        let part := blit (cb_partial p) (cb_psz p) (firstn sz data) in
        let psz := cb_psz p + sz in
        let rest := skipn sz data in
        if full (Z.of_nat psz) rest then
          '(o, a) <- crypt (cb_aes p) part ;;
          Ok (o, a, if clear then zero_block else part, 0, rest)
        else Ok ([], cb_aes p, part, psz, rest)
      else Ok ([], cb_aes p, cb_partial p, cb_psz p, data)) ;;
  '(out2, a2, data2) <-
     (if 0 <? blk data1 then
        '(o, a) <- crypt a1 (firstn (blk data1) data1) ;; Ok (o, a, skipn (blk data1) data1)
      else Ok ([], a1, data1)) ;;
  Ok (out1 ++ out2,
      if 0 <? length data2 then mkCbc a2 (blit part1 0 data2) (length data2) else mkCbc a2 part1 psz1).
Definition bytes_out (p : cbc) (data : list N) : nat :=
  if 0 <? cb_psz p then
    let sz := Nat.min (BLK - cb_psz p) (length data) in
    let rest := skipn sz data in
    if full (Z.of_nat (cb_psz p + sz)) rest then 16 + blk rest else blk rest
  else blk data.

Variable k : list N -> prog.
Variable kerr : prog.
Variable room : Z.
Notation up := (up crypt clear full blk room k kerr).

Lemma run_rest d out s p :
  run (up_rest k d out) (at_ s p) =
  run (k out) (at_ s (if 0 <? length d then mkCbc (cb_aes p) (blit (cb_partial p) 0 d) (length d) else p)).
Proof.
  unfold up_rest. destruct (0 <? length d); [|reflexivity]. rewrite run_wr_cbc, run_wr_psz. cbn [cb_aes cb_partial].
  unfold zlen. rewrite Nat2Z.id. reflexivity.
Qed.
Lemma run_blocks d off out s p :
  (off + Z.of_nat (blk d) <= room)%Z ->
  run (up_blocks crypt blk room k kerr d off out) (at_ s p) =
  match (if 0 <? blk d then
           '(o, a) <- crypt (cb_aes p) (firstn (blk d) d) ;; Ok (o, a, skipn (blk d) d)
         else Ok ([], cb_aes p, d)) with
  | Ok (o2, a2, d2) =>
      run (k (out ++ o2)) (at_ s (if 0 <? length d2 then mkCbc a2 (blit (cb_partial p) 0 d2) (length d2)
                                  else mkCbc a2 (cb_partial p) (cb_psz p)))
  | Err _ => run kerr (at_ s p)
  | Undef u => Undef u
  end.
Proof.
  intro R. unfold up_blocks. destruct (0 <? blk d).
  - rewrite run_crypt_to. destruct (crypt (cb_aes p) (firstn (blk d) d)) as [[o a]|e|u]; cbn [bind]; try reflexivity.
    unfold zlen. rewrite firstn_length. destruct (Z.ltb_spec room (off + Z.of_nat (Nat.min (blk d) (length d)))).
    + exfalso. pose proof (blk_le d). lia.
    + rewrite run_rest. reflexivity.
  - rewrite run_rest, app_nil_r. destruct p. reflexivity.
Qed.

Lemma useq_ok p d : length (cb_partial p) = 16 -> cb_psz p <= 16 -> exists r, useq p d = Ok r.
Proof.
  intros L Z. unfold useq.
  assert (B : forall a1 data1, exists o a r, (if 0 <? blk data1 then
        '(o, a) <- crypt a1 (firstn (blk data1) data1) ;; Ok (o, a, skipn (blk data1) data1)
      else Ok ([], a1, data1)) = Ok (o, a, r)).
  { intros a1 data1. destruct (0 <? blk data1).
    - destruct (crypt_ok a1 (firstn (blk data1) data1)) as [o [a E]].
      { rewrite firstn_length. pose proof (blk_le data1). rewrite Nat.min_l by lia. apply blk_mod. }
      rewrite E. cbn [bind]. do 3 eexists. reflexivity.
    - do 3 eexists. reflexivity. }
  destruct (0 <? cb_psz p).
  - cbv zeta. destruct (full _ _).
    + destruct (crypt_ok (cb_aes p) (blit (cb_partial p) (cb_psz p) (firstn (Nat.min (BLK - cb_psz p) (length d)) d))) as [o [a E]].
      { rewrite blit_length; [rewrite L; reflexivity|]. rewrite firstn_length. unfold BLK. lia. }
      rewrite E. cbn [bind]. destruct (B a (skipn (Nat.min (BLK - cb_psz p) (length d)) d)) as [o2 [a2 [r E2]]]. rewrite E2. eexists. reflexivity.
    + cbn [bind]. destruct (B (cb_aes p) (skipn (Nat.min (BLK - cb_psz p) (length d)) d)) as [o2 [a2 [r E2]]]. rewrite E2. eexists. reflexivity.
  - cbn [bind]. destruct (B (cb_aes p) d) as [o2 [a2 [r E2]]]. rewrite E2. eexists. reflexivity.
Qed.

Lemma run_up s p d :
  length (cb_partial p) = 16 -> cb_psz p <= 16 -> (zlen d < 2^31)%Z ->
  (Z.of_nat (bytes_out p d) <= room)%Z ->
  exists out p', useq p d = Ok (out, p') /\ run (up d) (at_ s p) = run (k out) (at_ s p').
Proof.
  intros L Z D R. destruct (useq_ok p d L Z) as [[out p'] E]. exists out, p'. split; [exact E|].
  unfold SessRace.up. destruct (Z.leb_spec (2^31) (zlen d)); [lia|]. rewrite run_rd_cbc.
  unfold useq in E. unfold bytes_out in R. destruct (Nat.ltb_spec 0 (cb_psz p)) as [P|P].
  - rewrite run_rd_cbc. cbv zeta in *. rewrite run_wr_cbc.
    assert (MS : Z.min (16 - Z.of_nat (cb_psz p)) (zlen d) = Z.of_nat (Nat.min (BLK - cb_psz p) (length d))) by (unfold zlen, BLK; lia).
    rewrite MS. rewrite !Nat2Z.id. set (sz := Nat.min (BLK - cb_psz p) (length d)) in *.
    assert (SZ : cb_psz p + sz <= 16) by (unfold sz, BLK; lia).
    destruct (Z.ltb_spec (Z.of_nat sz) 0); [lia|]. destruct (Z.ltb_spec 16 (Z.of_nat (cb_psz p) + Z.of_nat sz)); [lia|]. cbn [orb].
    rewrite run_wr_cbc. cbn [cb_aes cb_partial cb_psz].
    rewrite Z.mod_small by lia. rewrite <- Nat2Z.inj_add, Nat2Z.id.
    unfold up_full. rewrite run_rd_cbc. cbn [cb_psz].
    destruct (full (Z.of_nat (cb_psz p + sz)) (skipn sz d)).
    + rewrite run_crypt_to. cbn [cb_aes cb_partial cb_psz].
      destruct (crypt (cb_aes p) (blit (cb_partial p) (cb_psz p) (firstn sz d))) as [[o a]|e|u]; cbn [bind] in E; try discriminate E.
      assert (LB : zlen (blit (cb_partial p) (cb_psz p) (firstn sz d)) = 16%Z).
      { unfold zlen. rewrite blit_length; [rewrite L; reflexivity|]. rewrite firstn_length, L. lia. }
      rewrite LB. destruct (Z.ltb_spec room (0 + 16)); [lia|]. rewrite app_nil_l. cbn beta. rewrite run_wr_psz. cbn [cb_aes cb_partial]. change (Z.to_nat 0) with 0.
      assert (RB := run_blocks (skipn sz d) 16 o s).
      destruct clear.
      * rewrite run_wr_cbc. cbn [cb_aes cb_psz]. rewrite RB by lia. cbn [cb_aes cb_partial cb_psz].
        destruct (if 0 <? blk (skipn sz d) then _ else _) as [[[o2 a2] d2]|e|u] in E |- *; cbn [bind] in E; try discriminate E.
        injection E as <- <-. reflexivity.
      * rewrite RB by lia. cbn [cb_aes cb_partial cb_psz].
        destruct (if 0 <? blk (skipn sz d) then _ else _) as [[[o2 a2] d2]|e|u] in E |- *; cbn [bind] in E; try discriminate E.
        injection E as <- <-. reflexivity.
    + cbn [bind] in E. rewrite run_blocks by lia. cbn [cb_aes cb_partial cb_psz].
      destruct (if 0 <? blk (skipn sz d) then _ else _) as [[[o2 a2] d2]|e|u] in E |- *; cbn [bind] in E; try discriminate E.
      injection E as <- <-. reflexivity.
  - cbn [bind] in E. rewrite run_blocks by lia.
    destruct (if 0 <? blk d then _ else _) as [[[o2 a2] d2]|e|u] in E |- *; cbn [bind] in E; try discriminate E.
    injection E as <- <-. destruct p as [pa pp pz]. reflexivity.
Qed.

Lemma useq_len p d out p' : length (cb_partial p) = 16 -> cb_psz p <= 16 -> useq p d = Ok (out, p') -> length (cb_partial p') = 16.
Proof.
  intros L Z E. unfold useq in E.
  destruct (if 0 <? cb_psz p then _ else _) as [[[[[o1 a1] part1] psz1] d1]|e|u] eqn:E1 in E; cbn [bind] in E; try discriminate E.
  assert (L1 : length part1 = 16).
  { destruct (0 <? cb_psz p).
    - cbv zeta in E1.
      assert (LB : length (blit (cb_partial p) (cb_psz p) (firstn (Nat.min (BLK - cb_psz p) (length d)) d)) = 16).
      { rewrite blit_length; [exact L|]. rewrite firstn_length, L. unfold BLK. lia. }
      destruct (full _ _).
      + destruct (crypt _ _) as [[o a]|e|u]; cbn [bind] in E1; try discriminate E1. injection E1 as <- <- <- <- <-.
        destruct clear; [reflexivity|exact LB].
      + injection E1 as <- <- <- <- <-. exact LB.
    - injection E1 as <- <- <- <- <-. exact L. }
  destruct (if 0 <? blk d1 then _ else _) as [[[o2 a2] d2]|e|u] eqn:E2 in E; cbn [bind] in E; try discriminate E.
  assert (L2 : length d2 <= 16).
  { clear E E1. destruct (Nat.ltb_spec 0 (blk d1)).
    - destruct (crypt _ _) as [[o a]|e|u]; cbn [bind] in E2; try discriminate E2. injection E2 as <- <- <-.
      rewrite skipn_length. apply blk_rest.
    - injection E2 as <- <- <-. pose proof (blk_rest d1). lia. }
  injection E as <- <-. destruct (Nat.ltb_spec 0 (length d2)); cbn [cb_partial]; [|exact L1].
  rewrite blit_length; [exact L1|]. lia.
Qed.
End Upd.
