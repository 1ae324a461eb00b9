(** The token's random generator: C_SeedRandom, C_GenerateRandom (crypto.c 4290-4350)
    and WP11_Slot_SeedRandom, WP11_Slot_GenerateRandom (internal.c 8536-8566) on an
    open session. The state of the generator is whether wolfCrypt has it instantiated;
    wolfCrypt's answers are oracles. *)
From Verif Require Import Base Ops Object.
From Coq Require Import List.
Import ListNotations.
Open Scope list_scope.

Record renv := mkRenv {
  re_init : list N -> Z -> Z;                  (* wc_InitRngNonce_ex: nonce, its length; result *)
  re_block : Z -> Z * list N                   (* wc_RNG_GenerateBlock on an instantiated generator: length; result, bytes written *)
}.
Definition MEMORY_E : Z := -125.
Definition RNG_FAILURE_E : Z := -199.
(** (int)len, then word32: the low 32 bits. *)
Definition low32 (n : Z) : Z := n mod 2 ^ 32.
Definition rv_of (ret : Z) : Z := if (ret =? MEMORY_E)%Z then CKR_DEVICE_MEMORY else if (ret =? 0)%Z then CKR_OK else CKR_FUNCTION_FAILED.

Section WithEnv.
Variable re : renv.
(** wc_FreeRng first, then the new instantiation: 8541-8543. *)
Definition SeedRandom (ready : bool) (seed : list N) (len : Z) : bool * Z :=
  let ret := re_init re seed (low32 len) in ((ret =? 0)%Z, rv_of ret).
(** 8560-8562; a generator that is not instantiated answers RNG_FAILURE_E. *)
Definition GenerateRandom (ready : bool) (len : Z) : bool * Z * list N :=
  let '(ret, b) := if ready then re_block re (low32 len) else (RNG_FAILURE_E, []) in (ready, rv_of ret, b).
(** Rng_New: internal.c 494-508: draws a nonce from the token's generator; used by
    key generation and the RSA and EC operations. *)
Definition RngNew (ready : bool) (draw : Z) : Z := if ready then draw else RNG_FAILURE_E.

Inductive rcall := RSeed (seed : list N) (len : Z) | RGen (len : Z).
Definition rstep (ready : bool) (c : rcall) : bool * Z :=
  match c with RSeed s n => SeedRandom ready s n | RGen n => fst (GenerateRandom ready n) end.
Definition rrun (l : list rcall) : bool := fold_left (fun b c => fst (rstep b c)) l true.
End WithEnv.
