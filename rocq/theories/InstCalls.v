(** Tests, not proofs: single instances of theorems of other files, written out with the model alone, without the lemmas and
    specifications of those files. They are for wrong programs (seeded/LOG.jsonl): an instance that computes to [false] on an edited
    model shows that the statement itself is false there, not only that a proof script broke. An instance is [true] when a hypothesis
    fails, so [met] shows that on this model none does. *)
From Verif Require Import Base Ops ToyEnv Object PropObject Store Sys ToySys RsaRaw.
From Coq Require Import String List Bool ZArith. Import ListNotations.
Open Scope list_scope. Local Notation length := List.length.
Definition leq (a b : list N) : bool := if list_eq_dec N.eq_dec a b then true else false.
Definition aes_t : template := [mkA CKA_CLASS (ULONG CKO_SECRET_KEY); mkA CKA_KEY_TYPE (ULONG CKK_AES); mkA CKA_VALUE (AV (repeat 5%N 16))].
Definition aes_d : template := [mkA CKA_CLASS (ULONG CKO_SECRET_KEY); mkA CKA_KEY_TYPE (ULONG CKK_AES)].
Definition rk : rsak := Object.mkRsa 33 7 3 11 1 7 2 3.
Definition keys : list op := setup ++ [OOpenSession 1 RW; OCreateObject H2 aes_t;
  OGenerateKeyPair H2 KP_RSA [] [] (Some (GRsa rk)); OGenerateKeyPair H2 KP_DH [mkA CKA_PRIME (AV [23%N]); mkA CKA_BASE (AV [5%N])] [] (Some (GDh [6%N] [8%N]))].
Definition obj_at (s : sys) (h : Z) : option obj := match sess_get s H2 with Some x => find_obj s x h | None => None end.
Definition sval (o : obj) : list N := match o_data o with KSym l b => firstn (Z.to_nat l) b | KDh _ _ l b => firstn (Z.to_nat l) b | _ => [] end.
Definition val_at s h := match obj_at s h with Some o => sval o | None => [] end.
Definition cls_at s h := match obj_at s h with Some o => o_class o | None => (-1)%Z end.
Definition rsa_at s h := match obj_at s h with Some o => match o_data o with KRsa r => rsa_l r | _ => [] end | None => [] end.
Definition upto : list N := map N.of_nat (seq 1 32).
Definition idr (n : nat) : RsaRaw.rsa := RsaRaw.mkRsa n (fun m => if Nat.eqb (length m) n then Some m else None) (fun s => if Nat.eqb (length s) n then Some s else None).
Definition iv : mparam := MPraw (repeat 0%N 16).
Definition go (s : sys) (c : op) : option (sys * out) := match step tw (rnd 0) s c with Ok p => Some p | _ => None end.
(** id, theorem, instance *)
Definition i_C66_partial := match Rsa_Sign (idr 256) [7%N] with Ok s => match Rsa_Verify (idr 256) s [7%N] with Ok b => b | _ => false end | _ => true end.
Definition i_C42_sound := match Rsa_Verify (idr 3) [1;2;3]%N [9;9;9]%N with Ok b => negb b | _ => true end.
Definition i_C42_complete := match Rsa_Verify (idr 256) (repeat 0%N 255 ++ [7%N]) [7%N] with Ok b => b | _ => false end.
Definition i_C68_partial := match go (after keys) (OGenerateKey H2 true [mkA CKA_VALUE_LEN (ULONG 16)] upto) with Some (s, OutH 0 h) => leq (val_at s h) (firstn 16 upto) | _ => true end.
Definition i_C69_handles := match go (after keys) (OGenerateKeyPair H2 KP_DH [mkA CKA_PRIME (AV [23%N]); mkA CKA_BASE (AV [5%N])] [] (Some (GDh [9%N] [11%N]))) with
  | Some (s, OutH2 0 h1 h2) => andb (andb (leq (val_at s h1) [11%N]) (leq (val_at s h2) [9%N])) (andb (cls_at s h1 =? CKO_PUBLIC_KEY) (cls_at s h2 =? CKO_PRIVATE_KEY))%Z | _ => true end.
Definition i_C67_wrap_partial := match go (after keys) (OWrapKey H2 M_AES_CBC_PAD iv 1 3 (Buf 64)) with Some (_, OutC r) => (o_rv r =? 0)%Z | _ => false end.
Definition i_C67_unwrap_partial := match go (after keys) (OWrapKey H2 M_AES_CBC_PAD iv 1 3 (Buf 64)) with
  | Some (s1, OutC r) => match go s1 (OUnwrapKey H2 M_AES_CBC_PAD iv 1 (o_out r) [mkA CKA_CLASS (ULONG CKO_PRIVATE_KEY); mkA CKA_KEY_TYPE (ULONG CKK_RSA)]) with
      | Some (s2, OutH 0 h) => leq (rsa_at s2 h) (rsa_l rk) | _ => true end | _ => true end.
Definition i_C12_fresh_token_partial := match go (after [OInitialize]) (OInitToken 1 sopin lab) with Some (_, OutRv 0) => true | _ => false end.
Definition base8 := after (setup ++ [OOpenSession 1 RW; OLogin H2 CKU_SO wrong (Some 1%Z)]).
Definition i_C08_login_partial := match go base8 (OLogin H2 CKU_SO wrong (Some 2%Z)) with Some (s, _) => negb (p_fail (t_so (s_tok s)) =? p_fail (t_so (s_tok base8)))%Z | None => true end.
Definition i_C30_partial := match go (after keys) (OCrypto H2 (KEncryptInit M_RSA_PKCS MPnull 0) 1) with Some (_, o) => negb (out_rv o =? 0)%Z | _ => true end.
Definition op_of (s : sys) := match sess_get s H2 with Some x => Some (os_init (ss_op x), match os_curr (ss_op x) with Some _ => true | None => false end) | None => None end.
Definition i_C64_partial := match go (after keys) (OCrypto H2 (KEncryptInit M_RSA_PKCS MPnull 0) 1) with Some (s, _) => match op_of s with Some (_, b) => negb b | None => false end | None => true end.
Definition i_C128_derived := match go (after keys) (ODeriveKey H2 D_DH 5 (Some (firstn 16 upto)) aes_d) with Some (s, OutH 0 h) => leq (val_at s h) (firstn 16 upto) | _ => true end.
Definition i_C122_closed := match hist (keys ++ [OCrypto H2 (KEncryptInit M_AES_CBC iv 0) 1; OCrypto H2 (KEncryptUpdate [1%N] (Buf 16)) 0; OCloseSession H2]) with
  | Ok (s, _) => forallb (fun x => if (ss_use x =? 0)%Z then match os_curr (ss_op x) with Some _ => false | None => match os_mech (ss_op x) with M_AES_CBC | M_AES_CBC_PAD => (os_init (ss_op x) =? 0)%Z | _ => true end end else true) (s_sess s) | _ => true end.
Definition i_C122_closed_pad := match hist (keys ++ [OCrypto H2 (KEncryptInit M_AES_CBC_PAD iv 0) 1; OCloseSession H2]) with
  | Ok (s, _) => forallb (fun x => if (ss_use x =? 0)%Z then match os_curr (ss_op x) with Some _ => false | None => match os_mech (ss_op x) with M_AES_CBC | M_AES_CBC_PAD => (os_init (ss_op x) =? 0)%Z | _ => true end end else true) (s_sess s) | _ => true end.
(** The calls of the instances do succeed, or fail as they should. *)
Definition met := (rvs keys, match go (after keys) (ODeriveKey H2 D_DH 5 (Some (firstn 16 upto)) aes_d) with Some (_, o) => Some o | _ => None end, match go (after keys) (OCrypto H2 (KEncryptInit M_RSA_PKCS MPnull 0) 1) with Some (_, o) => Some (out_rv o) | _ => None end).
Definition ec_p : attr := mkA CKA_EC_PARAMS (AV ([6; 8] ++ p256)%N).
Definition ekeys := go (after keys) (OGenerateKeyPair H2 KP_EC [ec_p] [ec_p] (Some (GEc 77 [4; 1; 2]%N))).
Definition i_C69_handles_ec := match ekeys with Some (s, OutH2 0 h1 h2) => match obj_at s h2 with Some o => match o_data o with KEc e => (ec_k e =? 77)%N | _ => false end | None => false end | _ => true end.
Definition i_C30_partial_ec := match ekeys with Some (s, OutH2 0 h1 h2) => match go s (OCrypto H2 (KEncryptInit M_RSA_PKCS MPnull 0) h1) with Some (_, o) => negb (out_rv o =? 0)%Z | _ => true end | _ => true end.
Example instances : forallb (fun b => b) [i_C66_partial; i_C42_sound; i_C42_complete; i_C68_partial; i_C69_handles; i_C67_wrap_partial; i_C67_unwrap_partial; i_C12_fresh_token_partial; i_C08_login_partial; i_C30_partial; i_C64_partial; i_C128_derived; i_C122_closed; i_C122_closed_pad; i_C69_handles_ec; i_C30_partial_ec] = true.
Proof. vm_compute. reflexivity. Qed.
Example instances_met : met = (repeat 0%Z 11, Some (OutH CKR_OK 6), Some CKR_KEY_TYPE_INCONSISTENT) /\ match ekeys with Some (_, o) => Some o | None => None end = Some (OutH2 CKR_OK 6 7).
Proof. vm_compute. auto. Qed.
