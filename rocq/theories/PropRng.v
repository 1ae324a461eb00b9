(** C96: the random generator of the token. *)
From Verif Require Import Base Ops Object Rng.
From Coq Require Import List.
Import ListNotations.
Open Scope list_scope.

(** wolfCrypt fills the buffer it is given when it reports success, and only then. *)
Definition fills (re : renv) : Prop := forall n, (0 <= n < 2 ^ 32)%Z -> fst (re_block re n) = 0%Z -> zlen (snd (re_block re n)) = n.
(** Success means that all the bytes asked for were delivered. *)
Definition C96_length_claim (re : renv) : Prop := forall l n b, (0 <= n < 2 ^ 64)%Z -> GenerateRandom re (rrun re l) n = (rrun re l, CKR_OK, b) -> zlen b = n.
(** A seed that is refused leaves the generator usable. *)
Definition C96_seed_claim (re : renv) : Prop := forall l n b seed len, (0 <= n < 2 ^ 32)%Z -> GenerateRandom re (rrun re l) n = (rrun re l, CKR_OK, b) ->
  snd (SeedRandom re (rrun re l) seed len) <> CKR_OK -> snd (fst (GenerateRandom re (fst (SeedRandom re (rrun re l) seed len)) n)) = CKR_OK.

(** A generator that counts, and refuses nonces of more than 64 bytes. *)
Definition toyr : renv := mkRenv (fun _ n => if (n <=? 64)%Z then 0%Z else (-173)%Z) (fun n => (0%Z, repeat 5%N (Z.to_nat n))).
Lemma toyr_fills : fills toyr.
Proof. intros n R _. cbn [toyr re_block snd]. unfold zlen. rewrite repeat_length. lia. Qed.
Theorem C96_length_refuted : ~ (forall re, fills re -> C96_length_claim re).
Proof. intros C. specialize (C toyr toyr_fills [] (2 ^ 32)%Z [] ltac:(lia) ltac:(vm_compute; reflexivity)). vm_compute in C. discriminate. Qed.
Print Assumptions C96_length_refuted.
Theorem C96_seed_refuted : ~ (forall re, fills re -> C96_seed_claim re).
Proof. intros C. specialize (C toyr toyr_fills [] 4%Z (repeat 5%N 4) [] 65%Z ltac:(lia) ltac:(vm_compute; reflexivity) ltac:(vm_compute; discriminate)). vm_compute in C. discriminate. Qed.
Print Assumptions C96_seed_refuted.

Lemma rrun_snoc re l c : rrun re (l ++ [c]) = fst (rstep re (rrun re l) c).
Proof. unfold rrun. rewrite fold_left_app. reflexivity. Qed.
(** Requests below 2^32 bytes are filled; as long as no seed has been refused the
    generator works, and after any history it works if and only if the last seed, if
    any, was accepted. *)
Theorem C96_partial re l : fills re ->
  (forall n b, (0 <= n < 2 ^ 32)%Z -> GenerateRandom re (rrun re l) n = (rrun re l, CKR_OK, b) -> zlen b = n) /\
  (forall seed len, rrun re (l ++ [RSeed seed len]) = true <-> snd (rstep re (rrun re l) (RSeed seed len)) = CKR_OK) /\
  (forall n, rrun re (l ++ [RGen n]) = rrun re l) /\
  (rrun re l = false -> forall n, exists rv, GenerateRandom re (rrun re l) n = (false, rv, []) /\ rv <> CKR_OK) /\
  ((forall l1 seed len l2, l = l1 ++ RSeed seed len :: l2 -> snd (rstep re (rrun re l1) (RSeed seed len)) = CKR_OK) -> rrun re l = true).
Proof.
  intros F.
  assert (Sd : forall l seed len, rrun re (l ++ [RSeed seed len]) = true <-> snd (rstep re (rrun re l) (RSeed seed len)) = CKR_OK).
  { intros l0 seed len. rewrite rrun_snoc. cbn [rstep SeedRandom fst snd]. unfold SeedRandom, rv_of. cbn [fst snd]. destruct (Z.eqb_spec (re_init re seed (low32 len)) 0) as [->|Ne]; [split; reflexivity|].
    split; [discriminate|]. destruct (_ =? MEMORY_E)%Z; discriminate. }
  assert (Gn : forall l n, rrun re (l ++ [RGen n]) = rrun re l).
  { intros l0 n. rewrite rrun_snoc. cbn [rstep]. unfold GenerateRandom. destruct (if rrun re l0 then _ else _). reflexivity. }
  split; [|split; [apply Sd|split; [apply Gn|split]]].
  - intros n b R E. unfold GenerateRandom in E. destruct (rrun re l); [|discriminate E]. unfold low32 in E. rewrite Z.mod_small in E by exact R. specialize (F n R). destruct (re_block re n) as [ret b']. injection E as E <-. cbn [fst snd] in F. apply F.
    unfold rv_of in E. destruct (ret =? MEMORY_E)%Z; [discriminate|]. destruct (Z.eqb_spec ret 0); [assumption|discriminate].
  - intros -> n. exists (rv_of RNG_FAILURE_E). split; [reflexivity|discriminate].
  - induction l as [|c l IH] using rev_ind; intros A; [reflexivity|].
    destruct c as [seed len|n].
    + apply Sd. exact (A l seed len [] eq_refl).
    + rewrite Gn. apply IH. intros l1 seed len l2 ->. apply (A l1 seed len (l2 ++ [RGen n])). rewrite <- app_assoc. reflexivity.
Qed.
Print Assumptions C96_partial.
(** After a refused seed no key can be generated either. *)
Theorem C96_keys_refuted : exists re l draw, fills re /\ rrun re l = false /\ (forall r, RngNew (rrun re l) r = RNG_FAILURE_E) /\ RngNew true draw = draw.
Proof. exists toyr, [RGen 16; RSeed [] 65], 0%Z. split; [exact toyr_fills|]. split; [reflexivity|]. split; intros; reflexivity. Qed.
Print Assumptions C96_keys_refuted.
Example C96_case : fills toyr /\ rrun toyr [RSeed [1%N] 1; RGen 8; RSeed [2%N] 1] = true /\ GenerateRandom toyr (rrun toyr [RSeed [1%N] 1; RGen 8]) 3 = (true, CKR_OK, [5; 5; 5]%N).
Proof. split; [exact toyr_fills|]. split; vm_compute; reflexivity. Qed.
