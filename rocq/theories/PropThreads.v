(** Several threads at once: no deadlock (C70) and exclusion on the shared data (C71 to C75). *)
From Coq Require Import List Arith Lia Bool.
Import ListNotations.
From Verif Require Import Threads ThreadsProofs.

(** ** C70: no deadlock *)
(** However many threads run whichever calls, and however they have been
    interleaved so far: as long as a thread has not finished, one of them can go
    on; they can all finish, and then every lock has been released. *)
Definition any (f : field) (w : bool) (h : held) : bool := true.
Theorem C70_no_deadlock ps ts : Forall (client calls) ps -> steps (start ps) ts -> (exists t, In t ts /\ t_todo t <> []) -> exists ts', step ts ts'.
Proof. intros F S (t & I & T). eapply (progress any); eauto. eapply steps_inv; [|exact S]. eapply start_inv; [|exact F]. vm_compute. reflexivity. Qed.
Theorem C70_all_finish ps ts : Forall (client calls) ps -> steps (start ps) ts ->
  exists ts', steps ts ts' /\ forall t, In t ts' -> t_todo t = [] /\ t_held t = [].
Proof. intros F S. eapply (completes any). eapply steps_inv; [|exact S]. eapply start_inv; [|exact F]. vm_compute. reflexivity. Qed.
Print Assumptions C70_no_deadlock.
Print Assumptions C70_all_finish.
(** The hypothesis bites: with one call that takes the token lock before the slot
    lock, two threads can block each other for ever. *)
Definition backwards : code := under LTok RW [under LSlot RO [rd Fsess]].
Definition forwards : code := under LSlot RW [under LTok RO [rd Fobjs]].
Example C70_order_matters : exists ts, steps (start [[Acq LTok RW; Acq LSlot RO; Rd Fsess; Rel LSlot RO; Rel LTok RW]; [Acq LSlot RW; Acq LTok RO; Rd Fobjs; Rel LTok RO; Rel LSlot RW]]) ts /\
  ~ exists ts', step ts ts'.
Proof.
  eexists. split; [apply (sched_steps [0; 1]); vm_compute; reflexivity|]. intros (ts' & S). inversion S as [i t t' N T E0]; subst. destruct i as [|[|i]]; cbn in N.
  - injection N as <-. inversion T; subst. discriminate.
  - injection N as <-. inversion T; subst. discriminate.
  - destruct i; discriminate N.
Qed.

(** ** Exclusion *)
(** Two threads are about to touch [f], at least one of them writing. *)
Definition race (f : field) (ts : list thread) : Prop :=
  exists i j a b w, i <> j /\ nth_error ts i = Some a /\ nth_error ts j = Some b /\ next_acc a f true /\ next_acc b f w.
Definition exclusive (cs : list code) (f : field) : Prop :=
  forall ps ts, Forall (client cs) ps -> steps (start ps) ts -> ~ race f ts.
Definition feqb (a b : field) : bool :=
  match a, b with Frng, Frng | Fgrng, Fgrng | Fsess, Fsess | Fuse, Fuse | Flogin, Flogin | Fpin, Fpin | Ffail, Ffail | Ftok, Ftok | Fobjs, Fobjs | Fkey, Fkey | Ffile, Ffile => true | _, _ => false end.
Definition guard (f0 : field) (l : lock) (f : field) (w : bool) (h : held) : bool :=
  if feqb f0 f then (if w then has h l RW else orb (has h l RO) (has h l RW)) else true.
Lemma guarded cs f l : good (guard f l) cs = true -> exclusive cs f.
Proof.
  intros G ps ts F S (i & j & a & b & w & D & Ia & Jb & Na & Nb). eapply (no_clash (guard f l) f l); eauto.
  - intros h w0 Q. unfold guard in Q. replace (feqb f f) with true in Q by (destruct f; reflexivity). destruct w0; [apply has_in; exact Q|]. apply orb_prop in Q as [Q|Q]; apply has_in in Q; auto.
  - eapply steps_inv; [|exact S]. eapply start_inv; eauto.
Qed.
(** A race from two calls, their decisions and a schedule. *)
Definition two (n : nat) (c1 : code) (b1 : list bool) (c2 : code) (b2 : list bool) : option (list ev * list ev) :=
  match trace n c1 b1, trace n c2 b2 with Some (p, []), Some (q, []) => Some (p, q) | _, _ => None end.
Definition racing (f : field) (ts : list thread) : bool :=
  match ts with [mkT _ (Wr g :: _); mkT _ (Wr h :: _)] => andb (feqb f g) (feqb f h) | [mkT _ (Wr g :: _); mkT _ (Rd h :: _)] => andb (feqb f g) (feqb f h) | _ => false end.
Lemma feqb_eq a b : feqb a b = true -> a = b.
Proof. destruct a, b; cbn; congruence. Qed.
Lemma raced n cs f c1 b1 c2 b2 is : In c1 cs -> In c2 cs ->
  match two n c1 b1 c2 b2 with Some (p, q) => match sched is (start [p; q]) with Some ts => racing f ts | None => false end | None => false end = true -> ~ exclusive cs f.
Proof.
  intros I1 I2 H X. unfold two in H. destruct (trace n c1 b1) as [[p r1]|] eqn:T1; [|discriminate H]. destruct r1; [|discriminate H]. destruct (trace n c2 b2) as [[q r2]|] eqn:T2; [|discriminate H]. destruct r2; [|discriminate H].
  destruct (sched is (start [p; q])) as [ts|] eqn:S; [|discriminate H]. apply sched_steps in S. refine (X [p; q] ts _ S _).
  - constructor; [eapply client_one; [exact I1|eapply trace_path; exact T1]|]. constructor; [eapply client_one; [exact I2|eapply trace_path; exact T2]|constructor].
  - destruct ts as [|[h1 [|[l m|l m|g|g] r1]] [|[h2 [|[l2 m2|l2 m2|g2|g2] r2]] [|? ?]]]; try discriminate H; apply andb_prop in H as [Q1 Q2]; apply feqb_eq in Q1, Q2; subst g g2.
    + exists 0, 1, (mkT h1 (Wr f :: r1)), (mkT h2 (Rd f :: r2)), false. repeat split; [discriminate|exists r1; reflexivity|exists r2; reflexivity].
    + exists 0, 1, (mkT h1 (Wr f :: r1)), (mkT h2 (Wr f :: r2)), true. repeat split; [discriminate|exists r1; reflexivity|exists r2; reflexivity].
Qed.
Ltac listed := unfold calls, init_calls, user_calls, so_calls, session_calls, object_calls, key_calls; cbn [app]; repeat (first [apply in_eq|apply in_cons]).
Definition quietly : list code := so_calls ++ session_calls.

(** ** C71: the random generators are used by one thread at a time *)
(** REFUTED for the token's generator: storing a token object that needs a new IV
    uses it without rngLock (internal.c 2753-2758), here while another thread is
    in C_GenerateRandom. *)
Theorem C71_refuted : ~ exclusive calls Frng.
Proof.
  apply (raced 100 calls Frng (C_CreateObject true) [true; true; false; true; true; true; true; false] C_Random [true; true] (repeat 0 20 ++ repeat 1 7)).
  - listed.
  - listed.
  - vm_compute. reflexivity.
Qed.
(** Every call that does not store a token object excludes all others, and the
    library's own generator is always used exclusively. *)
Theorem C71_partial : exclusive (user_calls ++ quietly ++ object_calls false ++ key_calls false ++ [C_FindObjectsInit; C_CloseAllSessions]) Frng.
Proof. apply guarded with LRng. vm_compute. reflexivity. Qed.
Theorem C71_global : exclusive calls Fgrng.
Proof. apply guarded with LGlob. vm_compute. reflexivity. Qed.
Print Assumptions C71_refuted.
Print Assumptions C71_partial.
Print Assumptions C71_global.
(** Two threads in C_GenerateRandom: the first holds the lock, so the second waits in front of it. *)
Example C71_case : match two 100 C_Random [true; true] C_Random [true; true] with
  | Some (p, q) => match sched (repeat 0 7 ++ repeat 1 6) (start [p; q]) with Some ts => (map t_todo ts, map (fun t => match tnext ts t with Some _ => true | None => false end) ts) | None => ([], []) end
  | None => ([], []) end = ([[Wr Frng; Rel LRng RW]; [Acq LRng RW; Wr Frng; Rel LRng RW]], [true; false]).
Proof. vm_compute. reflexivity. Qed.

(** ** C72: the token's object list is not read while it is being changed *)
(** REFUTED: C_Logout walks the list holding slot.lock (internal.c 4174) while
    C_CreateObject, holding token.lock, inserts into it. *)
Theorem C72_refuted : ~ exclusive calls Fobjs.
Proof.
  apply (raced 100 calls Fobjs (C_CreateObject true) [true; true; false; true; true; true; false; false] C_Logout [true; true; true; true; false] (repeat 0 12 ++ repeat 1 8)).
  - listed.
  - listed.
  - vm_compute. reflexivity.
Qed.
(** Without the calls that log the user in or out or store the token. *)
Theorem C72_partial : exclusive (quietly ++ object_calls true ++ key_calls true ++ [C_FindObjectsInit; C_CloseAllSessions]) Fobjs.
Proof. apply guarded with LTok. vm_compute. reflexivity. Qed.
Print Assumptions C72_refuted.
Print Assumptions C72_partial.
(** C_CreateObject with the lock held for writing keeps C_FindObjectsInit waiting. *)
Example C72_case : match two 100 (C_CreateObject true) [true; true; false; true; true; true; false; false] C_FindObjectsInit [true; true; true; true; true; true; false; false] with
  | Some (p, q) => match sched (repeat 0 12 ++ repeat 1 6) (start [p; q]) with Some ts => map (fun t => (hd_error (t_todo t), match tnext ts t with Some _ => true | None => false end)) ts | None => [] end
  | None => [] end = [(Some (Wr Fobjs), true); (Some (Acq LTok RO), false)].
Proof. vm_compute. reflexivity. Qed.

(** ** C73: the session list is not read while it is being changed *)
(** REFUTED: C_CloseAllSessions unlinks and frees sessions without any lock (internal.c 3695-3698). *)
Theorem C73_refuted : ~ exclusive calls Fsess.
Proof.
  apply (raced 100 calls Fsess C_CloseAllSessions [true; true; false] C_OpenSession [true; true; true] (repeat 0 3 ++ repeat 1 4)).
  - listed.
  - listed.
  - vm_compute. reflexivity.
Qed.
Theorem C73_partial : exclusive (init_calls ++ user_calls ++ quietly ++ object_calls true ++ key_calls true ++ [C_FindObjectsInit]) Fsess.
Proof. apply guarded with LSlot. vm_compute. reflexivity. Qed.
Print Assumptions C73_refuted.
Print Assumptions C73_partial.
Example C73_case : match two 100 C_OpenSession [true; true; true] C_CloseSession [true; true; true; false] with
  | Some (p, q) => match sched (repeat 0 6 ++ repeat 1 2) (start [p; q]) with Some ts => map (fun t => (hd_error (t_todo t), match tnext ts t with Some _ => true | None => false end)) ts | None => [] end
  | None => [] end = [(Some (Wr Fsess), true); (Some (Acq LSlot RO), false)].
Proof. vm_compute. reflexivity. Qed.

(** ** C74: the login state is not read while it is being changed *)
(** REFUTED: the search reads it under token.lock (internal.c 4829-4837), logging
    in and out write it under slot.lock. *)
Theorem C74_refuted : ~ exclusive calls Flogin.
Proof.
  apply (raced 100 calls Flogin C_Login_user [true; true; false; true; true; true; true; false; true] C_FindObjectsInit [true; true; true; true; true; true; false; false] (repeat 1 9 ++ repeat 0 25)).
  - listed.
  - listed.
  - vm_compute. reflexivity.
Qed.
Theorem C74_partial : exclusive (init_calls ++ user_calls ++ quietly ++ object_calls true ++ key_calls true ++ [C_CloseAllSessions]) Flogin.
Proof. apply guarded with LSlot. vm_compute. reflexivity. Qed.
Print Assumptions C74_refuted.
Print Assumptions C74_partial.
Example C74_case : match two 100 C_Logout [true; true; false] C_OpenSession [true; true; true] with
  | Some (p, q) => match sched (repeat 0 8 ++ repeat 1 2) (start [p; q]) with Some ts => map (fun t => (hd_error (t_todo t), match tnext ts t with Some _ => true | None => false end)) ts | None => [] end
  | None => [] end = [(Some (Wr Flogin), true); (Some (Acq LSlot RW), false)].
Proof. vm_compute. reflexivity. Qed.

(** ** C75: one thread at a time writes the token's files *)
(** REFUTED: C_SetPIN stores the token under slot.lock, C_CreateObject under token.lock. *)
Theorem C75_refuted : ~ exclusive calls Ffile.
Proof.
  apply (raced 100 calls Ffile C_SetPIN [true; true; true; true; true; true; false] (C_CreateObject true) [true; true; false; true; true; true; false; false] (repeat 1 17 ++ repeat 0 32)).
  - listed.
  - listed.
  - vm_compute. reflexivity.
Qed.
Theorem C75_partial : exclusive (user_calls ++ quietly ++ object_calls true ++ key_calls true ++ [C_FindObjectsInit; C_CloseAllSessions]) Ffile.
Proof. apply guarded with LTok. vm_compute. reflexivity. Qed.
Print Assumptions C75_refuted.
Print Assumptions C75_partial.
Example C75_case : match two 100 (C_CreateObject true) [true; true; false; true; true; true; false; false] (C_DestroyObject true) [true; true; true; true; false] with
  | Some (p, q) => match sched (repeat 1 10 ++ repeat 0 17) (start [p; q]) with Some ts => map (fun t => (hd_error (t_todo t), match tnext ts t with Some _ => true | None => false end)) ts | None => [] end
  | None => [] end = [(Some (Wr Ffile), true); (Some (Acq LTok RW), false)].
Proof. vm_compute. reflexivity. Qed.

(** ** C76: the failed-login counters are changed by one thread at a time *)
(** REFUTED: WP11_Slot_SOLogin resets the count holding the lock for reading only (internal.c 3899-3916). *)
Theorem C76_refuted : ~ exclusive calls Ffail.
Proof.
  apply (raced 100 calls Ffail C_Login_SO [true; true; true; false] C_Login_SO [true; true; true; false] (repeat 0 9 ++ repeat 1 9)).
  - listed.
  - listed.
  - vm_compute. reflexivity.
Qed.
(** Without C_Login of the security officer, C_GetTokenInfo and the calls that create or destroy token objects. *)
Theorem C76_partial : exclusive (init_calls ++ user_calls ++ session_calls ++ object_calls false ++ key_calls false ++ [C_FindObjectsInit; C_CloseAllSessions]) Ffail.
Proof. apply guarded with LSlot. vm_compute. reflexivity. Qed.
Print Assumptions C76_refuted.
Print Assumptions C76_partial.
Example C76_case : match two 100 C_Login_user [true; true; false; true; true; true; true; false; true] C_Login_user [true; true; true; false] with
  | Some (p, q) => match sched (repeat 1 6 ++ repeat 0 21) (start [p; q]) with Some ts => map (fun t => (hd_error (t_todo t), match tnext ts t with Some _ => true | None => false end)) ts | None => [] end
  | None => [] end = [(Some (Wr Ffail), true); (Some (Acq LSlot RW), false)].
Proof. vm_compute. reflexivity. Qed.

(** ** C77: the contents of a token object are not read while they are being changed *)
(** REFUTED twice: C_Logout replaces the key by its encoding under slot.lock only
    while C_GetAttributeValue reads it under token.lock, and C_DeriveKey with an EC
    key stores a pointer in the key without lock. *)
Theorem C77_refuted : ~ exclusive calls Fkey.
Proof.
  apply (raced 100 calls Fkey C_Logout [true; true; true; true; false] C_GetAttributeValue [true; true; true; true; true; false] (repeat 1 10 ++ repeat 0 11)).
  - listed.
  - listed.
  - vm_compute. reflexivity.
Qed.
Theorem C77_derive_refuted : ~ exclusive (object_calls true ++ key_calls true) Fkey.
Proof.
  apply (raced 100 _ Fkey (C_DeriveKey true) [true; true; true; true; true; true; true; true; false; false; false] (C_GetAttributeValue) [true; true; true; true; true; false] (repeat 0 12 ++ repeat 1 10)).
  - listed.
  - listed.
  - vm_compute. reflexivity.
Qed.
Theorem C77_partial : exclusive (quietly ++ object_calls true ++ [C_FindObjectsInit; C_CloseAllSessions]) Fkey.
Proof. apply guarded with LTok. vm_compute. reflexivity. Qed.
Print Assumptions C77_refuted.
Print Assumptions C77_derive_refuted.
Print Assumptions C77_partial.
Example C77_case : match two 100 C_SetAttributeValue [true; true; true; true; true; false] C_GetAttributeValue [true; true; true; true; true; false] with
  | Some (p, q) => match sched (repeat 1 9 ++ repeat 0 12) (start [p; q]) with Some ts => map (fun t => (hd_error (t_todo t), match tnext ts t with Some _ => true | None => false end)) ts | None => [] end
  | None => [] end = [(Some (Wr Fkey), true); (Some (Acq LTok RO), false)].
Proof. vm_compute. reflexivity. Qed.
