(** Several processes on one token: C104. *)
From Verif Require Import Base Codec Ops ToyEnv Object PropObject Store Sys ToySys PropStore Procs ProcsProofs.
From Coq Require Import List ZArith Lia.
Import ListNotations.
Open Scope list_scope.

(** ** C104: processes that share a token *)
(** *** What a process sees *)
(** From its C_Initialize on, a process gets the answers it would get if no other
    process existed: nothing another process does, not a changed PIN, not a destroyed
    key, not C_InitToken, can be seen from it. *)
Theorem C104_partial w m l m' os i : mrun w m l = Ok (m', os) -> (forall c r, In (c, r) (mine i l) -> c <> OInitialize) ->
  exists s, run w (on (m_fs m) (m_at m i)) (mine i l) = Ok (s, told i l os) /\
    s_count s = s_count (m_at m' i) /\ s_sess s = s_sess (m_at m' i) /\ s_tok s = s_tok (m_at m' i).
Proof.
  intros H NI. destruct (alone_run w i l m m' os (on (m_fs m) (m_at m i)) H) as (s & R & A & B & C & _); [repeat split|exact NI|].
  exists s. auto.
Qed.
Print Assumptions C104_partial.

(** *** What stays in the files *)
(** While the other processes make only calls that store nothing (C_Finalize stores),
    a process and the files are as if it were alone, C_Initialize included. *)
Theorem C104_readers_partial w m l m' os i : mrun w m l = Ok (m', os) -> (forall j c r, In (j, c, r) l -> j <> i -> silent c = true) ->
  exists s, run w (on (m_fs m) (m_at m i)) (mine i l) = Ok (s, told i l os) /\ on (m_fs m') (m_at m' i) = s /\ s_fs s = m_fs m'.
Proof.
  intros H NI. destruct (silent_run w i l m m' os (on (m_fs m) (m_at m i)) H eq_refl NI) as (s & R & A). exists s. split; [exact R|]. split; [exact A|]. rewrite <- A. reflexivity.
Qed.
Print Assumptions C104_readers_partial.

(** *** Lost keys *)
Definition kept (c : op) : bool := match c with ODestroyObject _ _ | OInitToken _ _ _ => false | _ => true end.
Definition on_tok (t : template) : bool := existsb (fun a => andb (a_type a =? CKA_TOKEN)%Z (match a_val a with AV [1%N] => true | _ => false end)) t.
(** Token objects whose creation was reported as done. *)
Fixpoint made (l : list event) (os : list out) : nat :=
  match l, os with
  | (_, OCreateObject _ t, _) :: l, OutH rv _ :: os => ((if andb (rv =? CKR_OK)%Z (on_tok t) then 1 else 0) + made l os)%nat
  | _ :: l, _ :: os => made l os
  | _, _ => 0%nat
  end.
(** Whatever was made after the token was initialised, and not destroyed, is there
    for a process started at the end. *)
Definition C104_claim (w : world) : Prop := forall d l0 m0 os0 l m os r s o,
  mrun w (start d) l0 = Ok (m0, os0) -> mrun w m0 l = Ok (m, os) -> (forall j c q, In (j, c, q) l -> kept c = true) ->
  step w r (sys0 (m_fs m)) OInitialize = Ok (s, o) -> (made l os <= length (t_objs (s_tok s)))%nat.
(** A PIN given up is not accepted any more. *)
Definition fixed (c : op) : bool := match c with OInitToken _ _ _ | OInitPIN _ _ | OSetPIN _ _ _ => false | _ => true end.
Definition C104_pin_claim (w : world) : Prop := forall d l1 i h old new now q q' l2 k slot fl h' now' r1 r2 r3 m os o,
  old <> new -> (forall j c q, In (j, c, q) l2 -> fixed c = true) ->
  mrun w (start d) (l1 ++ [(i, OLogin h CKU_USER old now, q); (i, OSetPIN h old new, q')] ++ l2 ++
     [(k, OInitialize, r1); (k, OOpenSession slot fl, r2); (k, OLogin h' CKU_USER old now', r3)]) = Ok (m, os) ->
  nth (length l1) os (OutRv 0) = OutRv CKR_OK -> nth (S (length l1)) os (OutRv 0) = OutRv CKR_OK -> last os o <> OutRv CKR_OK.

Definition by_ (i : nat) (l : list op) : list event := map (fun c => (i, c, rnd 7)) l.
Definition enter : list op := [OInitialize; OOpenSession 1 RW; userlogin upin].
Definition prep : list event := by_ 0 (setup ++ [OFinalize]).
Definition begun : procs := match mrun tw (start nofiles) prep with Ok (m, _) => m | _ => start nofiles end.
(** Two processes at work, each making a key. *)
Definition both : list event := by_ 1 enter ++ by_ 2 enter ++ by_ 1 [OCreateObject H2 (tokenly aes_tmpl)] ++ by_ 2 [OCreateObject H2 (tokenly aes_tmpl)].
Theorem C104_refuted : ~ C104_claim tw.
Proof.
  intros C.
  assert (E : exists m0 os0 m os s o, mrun tw (start nofiles) prep = Ok (m0, os0) /\ mrun tw m0 both = Ok (m, os) /\ step tw (rnd 1) (sys0 (m_fs m)) OInitialize = Ok (s, o) /\ made both os = 2%nat /\ length (t_objs (s_tok s)) = 1%nat)
    by (do 6 eexists; split; [vm_compute; reflexivity|split; [vm_compute; reflexivity|split; [vm_compute; reflexivity|split; vm_compute; reflexivity]]]).
  destruct E as (m0 & os0 & m & os & s & o & A & B & I & M & L).
  pose proof (C nofiles prep m0 os0 both m os (rnd 1) s o A B) as K. rewrite M, L in K. clear - K I. 
  assert (2 <= 1)%nat; [|lia]. apply K; [|exact I]. clear. intros j c q H. assert (F : forallb (fun e : event => kept (snd (fst e))) both = true) by (vm_compute; reflexivity).
  rewrite forallb_forall in F. exact (F _ H).
Qed.
Print Assumptions C104_refuted.
(** Process 2 only looks; when it ends in good order, the PIN process 1 gave up works
    again. *)
Theorem C104_pin_refuted : ~ C104_pin_claim tw.
Proof.
  intros C.
  pose (l1 := prep ++ by_ 2 [OInitialize] ++ by_ 1 [OInitialize; OOpenSession 1 RW]).
  pose (l2 := by_ 1 [OFinalize] ++ by_ 2 [OFinalize]).
  assert (E : exists m os, mrun tw (start nofiles) (l1 ++ [(1%nat, OLogin H2 CKU_USER upin (Some 0%Z), rnd 7); (1%nat, OSetPIN H2 upin pin2, rnd 7)] ++ l2 ++
     [(3%nat, OInitialize, rnd 7); (3%nat, OOpenSession 1 RW, rnd 7); (3%nat, OLogin H2 CKU_USER upin (Some 0%Z), rnd 7)]) = Ok (m, os) /\ os = repeat (OutRv CKR_OK) 2 ++ skipn 2 os /\ nth (length l1) os (OutRv 0) = OutRv CKR_OK /\ nth (S (length l1)) os (OutRv 0) = OutRv CKR_OK /\ last os (OutRv 1) = OutRv CKR_OK)
    by (do 2 eexists; split; [vm_compute; reflexivity|split; [|split; [|split]]; vm_compute; reflexivity]).
  destruct E as (m & os & A & _ & B1 & B2 & L).
  refine (C nofiles l1 1%nat H2 upin pin2 (Some 0%Z) (rnd 7) (rnd 7) l2 3%nat 1%Z RW H2 (Some 0%Z) (rnd 7) (rnd 7) (rnd 7) m os (OutRv 1) _ _ A B1 B2 L).
  - discriminate.
  - clear. intros j c q H. assert (F : forallb (fun e : event => fixed (snd (fst e))) l2 = true) by (vm_compute; reflexivity).
    rewrite forallb_forall in F. exact (F _ H).
Qed.
Print Assumptions C104_pin_refuted.

(** *** The hypotheses are met *)
(** Process 2 changes the PIN and destroys the key while process 1 uses it. *)
Definition busy2 : list event :=
  by_ 2 [OSetPIN H2 upin pin2; ODestroyObject H2 (2^28 + 1); OFinalize] ++ by_ 1 [OGetAttributeValue H2 (2^28 + 1) [mkA CKA_CLASS (AV (zeros 8))]; OLogout H2; userlogin upin; OGetTokenInfo 1 0].
Definition running : procs := match mrun tw begun (by_ 0 (enter ++ [OCreateObject H2 (tokenly aes_tmpl); OFinalize]) ++ by_ 1 enter ++ by_ 2 enter) with Ok (m, _) => m | _ => start nofiles end.
Example C104_case : match mrun tw running busy2 with
  | Ok (_, os) => (map out_rv os, forallb (fun c => match c with (OInitialize, _) => false | _ => true end) (mine 1 busy2)) = (repeat CKR_OK 7, true)
  | _ => False end.
Proof. vm_compute. reflexivity. Qed.
(** A process makes a key and leaves while another looks for it. *)
Definition readers : list event :=
  by_ 1 enter ++ by_ 2 enter ++ by_ 1 [OCreateObject H2 (tokenly aes_tmpl)] ++ by_ 2 [OFindObjectsInit H2 []; OFindObjects H2 5; OFindObjectsFinal H2; OLogout H2; OCloseSession H2] ++ by_ 1 [OFinalize] ++ by_ 1 enter.
Example C104_readers_case : match mrun tw begun readers with
  | Ok (m, os) => (map out_rv os, made readers os, length (t_objs (s_tok (m_at m 1))), forallb (fun e : event => orb (fst (fst e) =? 1)%nat (silent (snd (fst e)))) readers) = (repeat CKR_OK 16, 1%nat, 1%nat, true)
  | _ => False end.
Proof. vm_compute. reflexivity. Qed.
