(** Reference machine for the PINs across restarts (C126): the machine of Guard.v, which leaves open what C_Initialize finds, with
    what the files hold. It knows calls and answers, not hashes or files. *)
From Verif Require Import Base Ops Object Store Sys LoginProofs PropSys1 PropSys2 Device Guard.

(** Wrong PINs in a row, begin of the last lock-out, its length. *)
Definition counts (g : guard) : Z * Z * Z := (q_wrong g, q_since g, q_wait g).
Definition with_counts (g : guard) (n : Z * Z * Z) : guard := Guard (q_pin g) (fst (fst n)) (snd (fst n)) (snd n).
(** While the library is up, [v_lib] is what it knows and [v_file] are the counts in the files, which may be older; the files always
    have the PINs. While it is down, [v_lib] is what the files hold. *)
Record vault := Vault { v_lib : lib; v_file : role -> Z * Z * Z }.
Definition vault0 : vault := Vault lib0 (fun _ => (0, 0, 0)%Z).
(** These store the token if they add or remove a token object, and so store the counts with it. *)
Definition may_store (c : op) : bool :=
  match c with
  | OCreateObject _ _ | OCopyObject _ _ _ | ODestroyObject _ _ | OGenerateKey _ _ _ _ | OGenerateKeyPair _ _ _ _ _ | OUnwrapKey _ _ _ _ _ _ | ODeriveKey _ _ _ _ _ => true
  | _ => false
  end.
Definition answered (o : out) (l : list Z) : bool := existsb (Z.eqb (out_rv o)) l.
Definition vmoves (v : vault) (c : op) (o : out) (v' : vault) : Prop :=
  let m := v_lib v in let m' := v_lib v' in
  let same := l_made m' = l_made m /\ (forall r, l_guard m' r = l_guard m r) in
  let old := forall r, v_file v' r = v_file v r in
  let new := forall r, v_file v' r = counts (l_guard m' r) in
  moves m c o m' /\
  match c with
  | OInitialize => same /\ old                                       (* C_Initialize finds what the files hold *)
  | OFinalize =>                                                     (* the last C_Finalize stores everything, and what it stores is an initialised token (C12) *)
      if (d_count (l_dev m) =? 1)%Z then l_made m' = true /\ (forall r, l_guard m' r = l_guard m r) /\ new else same /\ old
  | ORestart =>                                                      (* a process that just ends: the PINs last, the counts are those in the files (C06) *)
      if (0 <? d_count (l_dev m))%Z then (l_made m = true -> l_made m' = true) /\ (forall r, l_guard m' r = with_counts (l_guard m r) (v_file v r)) /\ old else same /\ old
  | OInitToken _ _ _ => if answered o [CKR_OK] then new else old
  | OInitPIN _ _ | OSetPIN _ _ _ => if answered o [CKR_OK; CKR_FUNCTION_FAILED] then new else old
  | _ => if may_store c then old \/ new else old
  end.
(** A history of calls and answers that the machine allows, and the vault it ends with. *)
Inductive vaulting : vault -> list op -> list out -> vault -> Prop :=
  | va_nil v : vaulting v [] [] v
  | va_cons v c o v' cs os v2 : answers (v_lib v) c o -> vmoves v c o v' -> vaulting v' cs os v2 -> vaulting v (c :: cs) (o :: os) v2.
