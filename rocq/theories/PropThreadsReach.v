(** The unlocked use of the random number generator in Threads.v (C71) is on a
    path that calls can reach. *)
From Verif Require Import Base Object Store Sys ToySys PropObject PropStore2 PropObj PropObj2 PropObj3
  PropStore PropStore3 PropKeys.

(** A certificate stored on the token is turned into a private key object by
    C_SetAttributeValue; it has no initialisation vector yet. *)
Definition half_key : list op :=
  setup ++ [OOpenSession 1 RW; userlogin upin;
    OCreateObject H2 [mkA CKA_TOKEN TRUE; mkA CKA_CLASS (ULONG CKO_CERTIFICATE);
                      mkA CKA_CERTIFICATE_TYPE (ULONG 1); mkA CKA_VALUE (AV [1%N;2%N])];
    OSetAttributeValue H2 (2^28+1) [mkA CKA_CLASS (ULONG CKO_PRIVATE_KEY)]].
(** Creating another token object then stores the token, which draws the missing
    initialisation vector (internal.c 2753-2758) without holding a lock on the
    generator: the branch of Threads.v that C71_refuted goes through. *)
Theorem C71_branch_reached :
  exists s', step tw (rnd 0) (after half_key) (OCreateObject H2 (aes_of keyA)) = Ok (s', OutH 0 268435458) /\
    exists o o', In o (t_objs (s_tok (after half_key))) /\ In o' (t_objs (s_tok s')) /\
      o_handle o = (2^28+1)%Z /\ o_handle o' = o_handle o /\
      (forall b, In b (o_iv o) -> b = 0%N) /\
      (exists b, In b (o_iv o') /\ b <> 0%N).
Proof.
  destruct (step tw (rnd 0) (after half_key) (OCreateObject H2 (aes_of keyA))) as [[s' o]| |] eqn:E;
    [|vm_compute in E; discriminate E|vm_compute in E; discriminate E].
  assert (X : match step tw (rnd 0) (after half_key) (OCreateObject H2 (aes_of keyA)) with
    | Ok (s', r) => r = OutH 0 268435458 /\
        exists o o', find (fun x => (o_handle x =? 2^28+1)%Z) (t_objs (s_tok (after half_key))) = Some o /\
        find (fun x => (o_handle x =? 2^28+1)%Z) (t_objs (s_tok s')) = Some o' /\
        forallb (N.eqb 0) (o_iv o) = true /\ existsb (fun b => negb (b =? 0)%N) (o_iv o') = true
    | _ => False end).
  { vm_compute. split; [reflexivity|]. do 2 eexists. repeat split; reflexivity. }
  rewrite E in X. clear E. revert X. generalize (after half_key). intros s0 (-> & a & a' & F1 & F2 & F3 & F4).
  exists s'. split; [reflexivity|]. exists a, a'.
  apply find_some in F1. apply find_some in F2. destruct F1 as [I1 E1], F2 as [I2 E2].
  apply Z.eqb_eq in E1. apply Z.eqb_eq in E2.
  split; [exact I1|]. split; [exact I2|]. split; [exact E1|]. split; [congruence|].
  split.
  - intros b Hb. rewrite forallb_forall in F3. specialize (F3 b Hb). apply N.eqb_eq in F3. auto.
  - apply existsb_exists in F4. destruct F4 as (b & Hb & Hn). exists b. split; [exact Hb|].
    intros ->. discriminate Hn.
Qed.
Print Assumptions C71_branch_reached.
