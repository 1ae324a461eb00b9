From Verif Require Import Base Cbc CbcProofs Ecdsa EcdsaSpec.

Lemma Forall_firstn {A} (P : A -> Prop) n l : Forall P l -> Forall P (firstn n l).
Proof. intros H. revert n. induction H; intros [|n]; cbn [firstn]; auto. Qed.
Lemma Forall_skipn {A} (P : A -> Prop) n l : Forall P l -> Forall P (skipn n l).
Proof. intros H. revert n. induction H; intros [|n]; cbn [skipn]; auto. Qed.

Lemma be_val_acc l a : fold_left (fun a b => a * 256 + b)%N l a = (a * 256 ^ N.of_nat (length l) + be_val l)%N.
Proof.
  unfold be_val. revert a. induction l as [|b l IH]; intros a; cbn [fold_left length].
  - cbn. lia.
  - rewrite IH. rewrite (IH (0 * 256 + b)%N). rewrite Nat2N.inj_succ, N.pow_succ_r'. lia.
Qed.
Lemma be_val_cons b l : be_val (b :: l) = (b * 256 ^ N.of_nat (length l) + be_val l)%N.
Proof. unfold be_val at 1. cbn [fold_left]. rewrite be_val_acc. lia. Qed.
Lemma be_val_bound l : bytes_ok l -> (be_val l < 256 ^ N.of_nat (length l))%N.
Proof.
  induction 1 as [|b l Hb _ IH]; [cbn; lia|].
  unfold byte_ok in Hb. rewrite be_val_cons. cbn [length]. rewrite Nat2N.inj_succ, N.pow_succ_r'. nia.
Qed.
Lemma be_val_zeros n l : be_val (repeat 0%N n ++ l) = be_val l.
Proof. induction n; cbn [repeat app]; [reflexivity|]. rewrite be_val_cons. lia. Qed.

Lemma be_val_inj a b : bytes_ok a -> bytes_ok b -> length a = length b -> be_val a = be_val b -> a = b.
Proof.
  intros Ha. revert b. induction Ha as [|x a Hx Ha IH]; intros b Hb L E; destruct Hb as [|y b Hy Hb]; try discriminate L; [reflexivity|].
  cbn [length] in L. injection L as L. rewrite !be_val_cons, L in E.
  pose proof (be_val_bound a Ha). pose proof (be_val_bound b Hb). rewrite L in *.
  unfold byte_ok in *. assert (x = y) by nia. subst y. f_equal. apply IH; auto. lia.
Qed.

Lemma strip_spec l : l <> [] -> bytes_ok l ->
  exists n, l = repeat 0%N n ++ strip l /\ strip l <> [] /\ bytes_ok (strip l) /\
  (length (strip l) = 1 \/ hd 0%N (strip l) <> 0%N).
Proof.
  intros H0 Hb. induction l as [|a l IH]; [congruence|]. destruct l as [|b l].
  - exists 0. cbn [repeat app]. assert (strip [a] = [a]) as -> by (destruct a; reflexivity). repeat split; auto; discriminate.
  - destruct (N.eq_dec a 0) as [->|Ha].
    + destruct IH as (n & E & A & B & C); [discriminate|inversion Hb; assumption|].
      exists (S n). cbn [repeat app]. change (strip (0%N :: b :: l)) with (strip (b :: l)). split; [f_equal; exact E|]. auto.
    + exists 0. assert (strip (a :: b :: l) = a :: b :: l) as -> by (destruct a; [congruence|reflexivity]).
      repeat split; auto.
Qed.

Definition content (x : list N) : list N := (if (128 <=? hd 0 x)%N then [0%N] else []) ++ x.

Lemma content_der x l n : x <> [] -> bytes_ok x -> l = repeat 0%N n ++ x ->
  (length x = 1 \/ hd 0%N x <> 0%N) -> der_content (be_val l) (content x).
Proof.
  intros H0 Hb -> Hm. rewrite be_val_zeros. unfold content.
  destruct x as [|a x]; [congruence|]. cbn [hd] in *.
  destruct (N.leb_spec 128 a).
  - cbn [app]. split; [constructor; [unfold byte_ok; lia|exact Hb]|]. split; [rewrite be_val_cons; lia|]. lia.
  - cbn [app]. split; [exact Hb|]. split; [reflexivity|]. destruct x as [|b x]; [assumption|].
    split; [assumption|]. intros ->. destruct Hm as [Hm|Hm]; [discriminate|congruence].
Qed.

Lemma enc_int_content x : length x <= 127 ->
  enc_int x = 2%N :: N.of_nat (length (content x)) :: content x.
Proof.
  intros H. unfold enc_int, content. cbn [app]. f_equal. rewrite app_length.
  destruct (128 <=? hd 0 x)%N; cbn [length app]; f_equal; rewrite N.mod_small; lia.
Qed.

Lemma encode_der sz sig : 1 <= sz <= 66 -> length sig = 2 * sz -> bytes_ok sig ->
  der_sig (be_val (firstn sz sig)) (be_val (skipn sz sig)) (ECDSASig_Encode sz sig).
Proof.
  intros Hsz Hl Hb.
  assert (Lr : length (firstn sz sig) = sz) by (rewrite firstn_length; lia).
  assert (Ls : length (skipn sz sig) = sz) by (rewrite skipn_length; lia).
  assert (Br : bytes_ok (firstn sz sig)) by (apply Forall_firstn; exact Hb).
  assert (Bs : bytes_ok (skipn sz sig)) by (apply Forall_skipn; exact Hb).
  unfold ECDSASig_Encode. rewrite (firstn_all2 (n := sz) (skipn sz sig)) by lia.
  set (R := firstn sz sig) in *. set (S := skipn sz sig) in *.
  assert (NR : R <> []) by (intros E; rewrite E in Lr; cbn in Lr; lia).
  assert (NS : S <> []) by (intros E; rewrite E in Ls; cbn in Ls; lia).
  destruct (strip_spec R NR Br) as (nr & Er & Ar & Brr & Cr).
  destruct (strip_spec S NS Bs) as (ns & Es & As & Bss & Cs).
  assert (LR : length (strip R) <= sz) by (rewrite <- Lr; rewrite Er at 2; rewrite app_length; lia).
  assert (LS : length (strip S) <= sz) by (rewrite <- Ls; rewrite Es at 2; rewrite app_length; lia).
  assert (LC : forall x, length (content x) <= 1 + length x).
  { intros x. unfold content. destruct (128 <=? hd 0 x)%N; cbn; lia. }
  pose proof (LC (strip R)). pose proof (LC (strip S)).
  exists (content (strip R)), (content (strip S)).
  split; [eapply content_der; eauto|]. split; [eapply content_der; eauto|].
  split; [lia|]. split; [lia|]. split; [lia|].
  cbv zeta. rewrite !enc_int_content by lia.
  set (A := 2%N :: N.of_nat (length (content (strip R))) :: content (strip R)).
  set (B := 2%N :: N.of_nat (length (content (strip S))) :: content (strip S)).
  assert (LA : length A = 2 + length (content (strip R))) by reflexivity.
  assert (LB : length B = 2 + length (content (strip S))) by reflexivity.
  rewrite app_length. rewrite N.mod_small by lia.
  unfold der_len. rewrite Nat.ltb_antisym.
  destruct (128 <=? length A + length B); reflexivity.
Qed.

(** ** Decoding *)
Lemma rd_app_l a b i : i < length a -> rd (a ++ b) i = Ok (nth i a 0%N).
Proof.
  intros H. unfold rd. rewrite nth_error_app1 by exact H.
  rewrite (nth_error_nth' a 0%N H). reflexivity.
Qed.
Lemma rd_app_r a b i : rd (a ++ b) (length a + i) = rd b i.
Proof. unfold rd. rewrite nth_error_app2 by lia. f_equal. replace (length a + i - length a) with i by lia. reflexivity. Qed.
Lemma skipn_len_app {A} (a b : list A) n : skipn (length a + n) (a ++ b) = skipn n b.
Proof. rewrite skipn_app, skipn_all2 by lia. cbn [app]. f_equal. lia. Qed.

Lemma be_lead_bound b l sz : b <> 0%N -> (be_val (b :: l) < 256 ^ N.of_nat sz)%N -> length (b :: l) <= sz.
Proof.
  intros Hb H. rewrite be_val_cons in H. cbn [length].
  destruct (le_lt_dec (S (length l)) sz) as [|L]; [assumption|exfalso].
  assert (256 ^ N.of_nat sz <= 256 ^ N.of_nat (length l))%N by (apply N.pow_le_mono_r; lia). nia.
Qed.

(** Decoding one canonical INTEGER writes its value right-aligned. *)
Lemma dec_int_ok pre post sig n c sz base :
  der_content n c -> (n < 256 ^ N.of_nat sz)%N -> length c < 128 ->
  sz <= base -> base <= length sig ->
  exists x, bytes_ok x /\ length x <= sz /\ be_val x = n /\
    dec_int (pre ++ (2%N :: N.of_nat (length c) :: c) ++ post) sig (length pre) sz base =
    Ok (blit sig (base - length x) x, length pre + 2 + length c).
Proof.
  intros (Hb & Hv & Hc) Hn Hl Hsb Hbl.
  destruct c as [|a c]; [contradiction|].
  set (inp := pre ++ _ ++ post).
  assert (R0 : rd inp (length pre) = Ok 2%N).
  { unfold inp. replace (length pre) with (length pre + 0) at 1 by lia. rewrite rd_app_r. reflexivity. }
  assert (R1 : rd inp (length pre + 1) = Ok (N.of_nat (length (a :: c)))).
  { unfold inp. rewrite rd_app_r. reflexivity. }
  assert (R2 : rd inp (length pre + 2) = Ok a).
  { unfold inp. rewrite rd_app_r. reflexivity. }
  assert (Li : length pre + 2 + length (a :: c) <= length inp).
  { unfold inp. rewrite !app_length. cbn [length]. lia. }
  assert (Hput : forall x, length x <= sz -> put sig (Z.of_nat base - Z.of_nat (length x)) x = Ok (blit sig (base - length x) x)).
  { intros x Hx. unfold put, zlen.
    destruct (Z.ltb_spec (Z.of_nat base - Z.of_nat (length x)) 0); [lia|].
    destruct (Z.ltb_spec (Z.of_nat (length sig)) (Z.of_nat base - Z.of_nat (length x) + Z.of_nat (length x))); [lia|].
    cbn [orb]. do 2 f_equal. lia. }
  assert (Hszc : length (a :: c) <= sz + 1 /\ (a <> 0%N -> length (a :: c) <= sz) ).
  { split; [|intros Ha; apply be_lead_bound; [exact Ha|rewrite Hv; exact Hn]].
    destruct (N.eq_dec a 0) as [->|Ha].
    - destruct c as [|b c]; [cbn [length]; lia|]. destruct Hc as [_ Hc]. specialize (Hc eq_refl).
      rewrite be_val_cons in Hv. assert (length (b :: c) <= sz) by (apply be_lead_bound; [lia|lia]). cbn [length] in *. lia.
    - assert (length (a :: c) <= sz) by (apply be_lead_bound; [exact Ha|rewrite Hv; exact Hn]). lia. }
  destruct Hszc as [Hs1 Hs2].
  unfold dec_int. rewrite R0. cbn [bind]. change (negb (2 =? 2)%N) with false. cbv iota.
  rewrite R1. cbn [bind]. rewrite Nat2N.id.
  destruct (Nat.ltb_spec (sz + 1) (length (a :: c))); [lia|].
  destruct (Nat.ltb_spec (length inp) (length pre + 2 + length (a :: c))); [lia|].
  rewrite R2. cbn [bind].
  destruct (N.eqb_spec a 0) as [->|Ha].
  - cbn [length]. exists c.
    assert (F : firstn (length c) (skipn (length pre + 3) inp) = c).
    { unfold inp. rewrite skipn_len_app. cbn [skipn app]. rewrite firstn_app, firstn_all, Nat.sub_diag. cbn. apply app_nil_r. }
    rewrite F.
    assert (length c <= sz) by (cbn [length] in Hs1; lia).
    rewrite Hput by assumption. cbn [bind].
    split; [inversion Hb; assumption|]. split; [assumption|]. split; [rewrite be_val_cons in Hv; lia|].
    do 2 f_equal. lia.
  - exists (a :: c).
    assert (F : firstn (length (a :: c)) (skipn (length pre + 2) inp) = a :: c).
    { unfold inp. rewrite skipn_len_app. cbn [skipn app]. change (a :: c ++ post) with ((a :: c) ++ post). rewrite firstn_app, firstn_all, Nat.sub_diag. cbn. f_equal. apply app_nil_r. }
    rewrite F. specialize (Hs2 Ha). rewrite Hput by assumption. cbn [bind]. auto.
Qed.

Lemma blit_zeros_r m k x : length x <= m ->
  blit (repeat 0%N (m + k)) (m - length x) x = repeat 0%N (m - length x) ++ x ++ repeat 0%N k.
Proof.
  intros H. unfold blit. f_equal; [|f_equal].
  - replace (m + k) with ((m - length x) + (length x + k)) by lia. rewrite repeat_app.
    rewrite firstn_app, repeat_length, Nat.sub_diag. cbn. rewrite app_nil_r.
    rewrite firstn_all2; [reflexivity|rewrite repeat_length; lia].
  - replace (m + k) with (m + k) by lia. rewrite repeat_app.
    replace (m - length x + length x) with (length (repeat 0%N m) + 0) by (rewrite repeat_length; lia).
    apply skipn_len_app.
Qed.

Lemma decode_der sz r s d : 1 <= sz <= 66 ->
  der_sig r s d -> (r < 256 ^ N.of_nat sz)%N -> (s < 256 ^ N.of_nat sz)%N ->
  exists R S, ECDSASig_Decode d sz = Ok (R ++ S) /\
    bytes_ok R /\ bytes_ok S /\ length R = sz /\ length S = sz /\ be_val R = r /\ be_val S = s.
Proof.
  intros Hsz (cr & cs & Hr & Hs & Lr & Ls & Lt & D) Br Bs. cbv zeta in D.
  assert (Nr : 1 <= length cr) by (destruct Hr as (_ & _ & Hr); destruct cr; [contradiction|cbn; lia]).
  assert (Ns : 1 <= length cs) by (destruct Hs as (_ & _ & Hs); destruct cs; [contradiction|cbn; lia]).
  set (A := 2%N :: N.of_nat (length cr) :: cr) in *.
  set (B := 2%N :: N.of_nat (length cs) :: cs) in *.
  assert (LA : length A = 2 + length cr) by reflexivity.
  assert (LB : length B = 2 + length cs) by reflexivity.
  set (pre := 48%N :: der_len (length (A ++ B))) in *.
  assert (D' : d = pre ++ A ++ B) by (rewrite D; unfold pre; reflexivity).
  assert (Lpre : length pre = if length (A ++ B) <? 128 then 2 else 3).
  { unfold pre, der_len. destruct (_ <? _); reflexivity. }
  destruct (dec_int_ok pre B (repeat 0%N (sz * 2)) r cr sz sz Hr Br Lr ltac:(lia)) as (x & X1 & X2 & X3 & X4).
  { rewrite repeat_length. lia. }
  replace (sz * 2) with (sz + sz) in X4 at 1 by lia.
  replace (repeat 0%N (sz * 2)) with (repeat 0%N (sz + sz)) in X4 by (f_equal; lia).
  rewrite blit_zeros_r in X4 by assumption.
  set (R := repeat 0%N (sz - length x) ++ x).
  assert (LR : length R = sz) by (unfold R; rewrite app_length, repeat_length; lia).
  rewrite (app_assoc (repeat 0%N (sz - length x)) x) in X4. fold R in X4.
  destruct (dec_int_ok (pre ++ A) [] (R ++ repeat 0%N sz) s cs sz (2 * sz) Hs Bs Ls ltac:(lia)) as (y & Y1 & Y2 & Y3 & Y4).
  { rewrite app_length, repeat_length, LR. lia. }
  rewrite app_nil_r in Y4.
  assert (By : blit (R ++ repeat 0%N sz) (2 * sz - length y) y = R ++ repeat 0%N (sz - length y) ++ y).
  { pose proof (blit_zeros_r sz 0 y Y2) as E. rewrite !Nat.add_0_r in E. cbn [repeat] in E. rewrite app_nil_r in E.
    rewrite <- E. unfold blit.
    replace (2 * sz - length y) with (length R + (sz - length y)) by lia.
    rewrite firstn_app_2, <- app_assoc. f_equal. f_equal. f_equal.
    replace (length R + (sz - length y) + length y) with (length R + (sz - length y + length y)) by lia.
    apply skipn_len_app. }
  rewrite By in Y4.
  assert (LP : length (pre ++ A) = length pre + 2 + length cr) by (rewrite app_length, LA; lia).
  exists R, (repeat 0%N (sz - length y) ++ y).
  split; [|].
  2:{ unfold R. rewrite !be_val_zeros. rewrite !app_length, !repeat_length.
      assert (Z : forall k z, bytes_ok z -> bytes_ok (repeat 0%N k ++ z)).
      { intros k z Hz. apply Forall_app. split; [|exact Hz]. clear. induction k; constructor; [unfold byte_ok; lia|assumption]. }
      repeat split; auto; lia. }
  assert (LD : length d = length pre + length (A ++ B)) by (rewrite D', app_length; reflexivity).
  assert (LAB : length (A ++ B) = 4 + length cr + length cs) by (rewrite app_length; lia).
  unfold ECDSASig_Decode. replace (sz * 2) with (sz + sz) by lia.
  destruct (Nat.ltb_spec (length d) 5).
  { exfalso. destruct (_ <? 128) in Lpre; lia. }
  assert (E0 : rd d 0 = Ok 48%N) by (rewrite D'; reflexivity).
  rewrite E0. cbn [bind]. change (negb (48 =? 48)%N) with false. cbv iota.
  assert (S : forall i, rd d i = rd (pre ++ A ++ B) i) by (intros; rewrite D'; reflexivity).
  fold B in Y4. rewrite <- app_assoc in Y4. rewrite <- D' in Y4.
  fold A in X4. rewrite <- D' in X4. unfold pre, der_len in *. destruct (Nat.ltb_spec (length (A ++ B)) 128).
  - assert (E1 : rd d 1 = Ok (N.of_nat (length (A ++ B)))) by (rewrite D'; reflexivity).
    rewrite E1. cbn [bind].
    destruct (N.leb_spec 128 (N.of_nat (length (A ++ B)))); [lia|]. cbn [andb].
    rewrite E1. cbn [bind]. rewrite Nat2N.id. rewrite LD. cbn [length].
    replace (2 + length (A ++ B) - 2) with (length (A ++ B)) by lia. rewrite Nat.eqb_refl. cbn [negb].
    cbn [length] in X4. change (1 + 1) with 2. rewrite X4. cbn [bind].
    cbn [length] in LP. rewrite <- LP. rewrite LD in *.
    destruct (Nat.ltb_spec (2 + length (A ++ B)) (length ([48%N; N.of_nat (length (A ++ B))] ++ A) + 2)).
    { cbn [length app] in *. lia. }
    cbn [length] in *. rewrite Y4. cbn [bind]. reflexivity.
  - assert (E1 : rd d 1 = Ok 129%N) by (rewrite D'; reflexivity).
    assert (E2 : rd d 2 = Ok (N.of_nat (length (A ++ B)))) by (rewrite D'; reflexivity).
    rewrite E1. cbn [bind]. change (128 <=? 129)%N with true. change (129 =? 129)%N with true. cbn [andb negb].
    rewrite E2. cbn [bind]. rewrite Nat2N.id. rewrite LD. cbn [length].
    replace (3 + length (A ++ B) - 3) with (length (A ++ B)) by lia. rewrite Nat.eqb_refl. cbn [negb].
    cbn [length] in X4. change (2 + 1) with 3. rewrite X4. cbn [bind].
    cbn [length] in LP. rewrite <- LP. rewrite LD in *.
    destruct (Nat.ltb_spec (3 + length (A ++ B)) (length ([48%N; 129%N; N.of_nat (length (A ++ B))] ++ A) + 2)).
    { cbn [length app] in *. lia. }
    cbn [length] in *. rewrite Y4. cbn [bind]. reflexivity.
Qed.

Lemma encode_decode sz sig : 1 <= sz <= 66 -> length sig = 2 * sz -> bytes_ok sig ->
  ECDSASig_Decode (ECDSASig_Encode sz sig) sz = Ok sig.
Proof.
  intros Hsz Hl Hb.
  assert (Br : bytes_ok (firstn sz sig)) by (apply Forall_firstn; exact Hb).
  assert (Bs : bytes_ok (skipn sz sig)) by (apply Forall_skipn; exact Hb).
  assert (Lr : length (firstn sz sig) = sz) by (rewrite firstn_length; lia).
  assert (Ls : length (skipn sz sig) = sz) by (rewrite skipn_length; lia).
  destruct (decode_der sz _ _ _ Hsz (encode_der sz sig Hsz Hl Hb)) as (R & S & E & BR & BS & LR & LS & VR & VS).
  { rewrite <- Lr at 2. apply be_val_bound. exact Br. }
  { rewrite <- Ls at 2. apply be_val_bound. exact Bs. }
  rewrite E. f_equal. rewrite <- (firstn_skipn sz sig) at 1.
  f_equal; apply be_val_inj; auto; lia.
Qed.

(** ** Undefined behaviour only from two malformed length fields *)
Definition bad_int (inp : list N) (i sz : nat) : Prop :=
  nth_error inp i = Some 2%N /\
  ((nth_error inp (i + 1) = Some 0%N) \/
   (exists b, nth_error inp (i + 1) = Some (N.of_nat (sz + 1)) /\
              nth_error inp (i + 2) = Some b /\ b <> 0%N)).

Lemma rd_some inp i : i < length inp -> exists b, rd inp i = Ok b /\ nth_error inp i = Some b.
Proof.
  intros H. unfold rd. destruct (nth_error inp i) eqn:E; [eauto|].
  apply nth_error_None in E. lia.
Qed.

Lemma put_len sig off x s : put sig off x = Ok s -> length s = length sig.
Proof.
  unfold put. destruct (Z.ltb_spec off 0); [discriminate|]. cbn [orb]. unfold zlen.
  destruct (Z.ltb_spec (Z.of_nat (length sig)) (off + Z.of_nat (length x))); [discriminate|].
  intros E. injection E as <-. apply blit_length. lia.
Qed.

Lemma dec_int_ub inp sig i sz base :
  i + 2 <= length inp -> sz <= base <= length sig ->
  match dec_int inp sig i sz base with
  | Undef _ => bad_int inp i sz
  | Ok (s, j) => length s = length sig
  | Err _ => True
  end.
Proof.
  intros Hi Hb. unfold dec_int.
  destruct (rd_some inp i ltac:(lia)) as (t & -> & Et). cbn [bind].
  destruct (N.eqb_spec t 2) as [->|]; [|exact I]. cbn [negb].
  destruct (rd_some inp (i + 1) ltac:(lia)) as (l & -> & El). cbn [bind].
  destruct (Nat.ltb_spec (sz + 1) (N.to_nat l)); [exact I|].
  destruct (Nat.ltb_spec (length inp) (i + 2 + N.to_nat l)) as [|Hl]; [exact I|].
  destruct (N.eq_dec l 0) as [->|Hl0].
  { assert (B : bad_int inp i sz) by (split; [assumption|left; assumption]).
    unfold rd. destruct (nth_error inp (i + 2)) as [b|]; cbn [bind]; [|exact B].
    destruct (N.eqb_spec b 0); [exact B|].
    cbn [N.to_nat firstn Nat.add]. unfold put. cbn [zlen length].
    unfold zlen. cbn [length].
    destruct (Z.ltb_spec (Z.of_nat base - Z.of_nat 0) 0); [lia|].
    destruct (Z.ltb_spec (Z.of_nat (length sig)) (Z.of_nat base - Z.of_nat 0 + Z.of_nat 0)); [lia|].
    cbn [orb bind]. apply blit_length. cbn. lia. }
  destruct (rd_some inp (i + 2) ltac:(lia)) as (b & -> & Eb). cbn [bind].
  destruct (N.eqb_spec b 0) as [->|Hb0].
  - destruct (N.to_nat l) as [|n] eqn:En; [lia|].
    assert (Lf : length (firstn n (skipn (i + 3) inp)) = n) by (rewrite firstn_length, skipn_length; lia).
    destruct (put _ _ _) as [s|e|u] eqn:P; cbn [bind].
    + eapply put_len. exact P.
    + exact I.
    + exfalso. unfold put, zlen in P. rewrite Lf in P.
      destruct (Z.ltb_spec (Z.of_nat base - Z.of_nat n) 0); [lia|].
      destruct (Z.ltb_spec (Z.of_nat (length sig)) (Z.of_nat base - Z.of_nat n + Z.of_nat n)); [lia|discriminate].
  - assert (Lf : length (firstn (N.to_nat l) (skipn (i + 2) inp)) = N.to_nat l) by (rewrite firstn_length, skipn_length; lia).
    destruct (put _ _ _) as [s|e|u] eqn:P; cbn [bind].
    + eapply put_len. exact P.
    + exact I.
    + split; [assumption|]. right. exists b. repeat split; auto.
      unfold put, zlen in P. rewrite Lf in P.
      destruct (Z.ltb_spec (Z.of_nat base - Z.of_nat (N.to_nat l)) 0).
      * rewrite El. f_equal. lia.
      * destruct (Z.ltb_spec (Z.of_nat (length sig)) (Z.of_nat base - Z.of_nat (N.to_nat l) + Z.of_nat (N.to_nat l))); [lia|discriminate].
Qed.

Lemma decode_ub inp sz u : ECDSASig_Decode inp sz = Undef u -> exists i, bad_int inp i sz.
Proof.
  unfold ECDSASig_Decode. destruct (Nat.ltb_spec (length inp) 5) as [|L]; [discriminate|].
  destruct (rd_some inp 0 ltac:(lia)) as (b0 & -> & _). cbn [bind].
  destruct (negb (b0 =? 48)%N); [discriminate|].
  destruct (rd_some inp 1 ltac:(lia)) as (b1 & E1 & _). rewrite E1. cbn [bind].
  destruct (_ && _)%bool; [discriminate|].
  set (i := if (128 <=? b1)%N then 2 else 1). set (q := if (128 <=? b1)%N then 3 else 2).
  assert (i <= 2) by (unfold i; destruct (128 <=? b1)%N; lia).
  destruct (rd_some inp i ltac:(lia)) as (bl & -> & _). cbn [bind].
  destruct (negb _); [discriminate|].
  assert (Lz : length (repeat 0%N (sz * 2)) = sz * 2) by apply repeat_length.
  pose proof (dec_int_ub inp (repeat 0%N (sz * 2)) (i + 1) sz sz ltac:(lia) ltac:(lia)) as D1.
  destruct (dec_int inp (repeat 0%N (sz * 2)) (i + 1) sz sz) as [[s1 j]|e|v]; cbn [bind]; [|discriminate|eauto].
  destruct (Nat.ltb_spec (length inp) (j + 2)); [discriminate|].
  pose proof (dec_int_ub inp s1 j sz (2 * sz) ltac:(lia) ltac:(lia)) as D2.
  destruct (dec_int inp s1 j sz (2 * sz)) as [[s2 j2]|e|v]; cbn [bind]; [discriminate|discriminate|eauto].
Qed.
