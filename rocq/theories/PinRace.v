(** Setting the user PIN and logging in from several threads: WP11_Slot_SetUserPin
    (internal.c 4114-4155), WP11_Slot_CheckUserPin (3845-3870) and the part of
    WP11_Slot_UserLogin (3974-4059) that derives the storage key.

    Both functions release slot.lock around the expensive HashPIN, which reads the
    seed when it starts and writes its result when it ends, so each of these is a
    step of its own.  What is done while holding the lock is one step.  HashPIN
    succeeds; the seeds drawn from the random generator are numbered.  Not
    modelled: the failed-login counters (LoginRace.v), the state of the token
    other than PIN and storage key. *)
From Coq Require Import List Arith Lia Bool.
Import ListNotations.

Section Model.
  Variable hash : Type.
  Variable HashPIN : nat -> nat -> hash. (* PIN and seed: internal.c 3744-3767 *)

  (** token.userPinSeed, token.seed, token.userPin, token.key. *)
  Record shared := mkSh { s_seed : nat; s_kseed : nat; s_pin : hash; s_key : hash }.
  (** WP11_Slot_SetUserPin, called by C_InitPIN and C_SetPIN; C_Login of the user. *)
  Inductive op := Change (p : nat) | Login (p : nat).
  Inductive pc :=
  | Idle
  | S1 (p : nat)              (* seeds written, lock released: 4133; HashPIN about to read userPinSeed *)
  | S2 (p sd : nat)           (* HashPIN about to write userPin: 4135-4137 *)
  | S3 (p : nat)              (* second HashPIN about to read seed: 4140 *)
  | S4 (p sd : nat)           (* about to write key: 4141 *)
  | S5 (p : nat)              (* about to lock and store: 4144-4152 *)
  | L1 (p : nat)              (* CheckUserPin, lock released: 3857; HashPIN about to read userPinSeed *)
  | L2 (p sd : nat)           (* about to lock and compare: 3863-3866 *)
  | L3 (p : nat)              (* PIN accepted; HashPIN about to read seed: 4017 *)
  | L4 (p sd : nat)           (* about to write key: 4018 *)
  | Refused (p : nat).        (* PIN_INVALID_E *)
  (** [last]: the PIN of the change that ended last. *)
  Record state := mkS { sh : shared; pcs : list pc; fresh : nat; last : nat }.

  Fixpoint setpc (l : list pc) (i : nat) (x : pc) : list pc := match l, i with [], _ => [] | _ :: r, O => x :: r | y :: r, S j => y :: setpc r j x end.
  Definition at_ (s : state) (i : nat) (x : pc) (h : shared) : state := mkS h (setpc (pcs s) i x) (fresh s) (last s).
  (** [may s o]: the caller starts [o] only in such states. *)
  Inductive step (may : state -> op -> Prop) : state -> state -> Prop :=
  | c_start s i p : nth_error (pcs s) i = Some Idle -> may s (Change p) ->
      step may s (mkS (mkSh (fresh s) (S (fresh s)) (s_pin (sh s)) (s_key (sh s))) (setpc (pcs s) i (S1 p)) (S (S (fresh s))) (last s))
  | c_read s i p : nth_error (pcs s) i = Some (S1 p) -> step may s (at_ s i (S2 p (s_seed (sh s))) (sh s))
  | c_write s i p sd : nth_error (pcs s) i = Some (S2 p sd) -> step may s (at_ s i (S3 p) (mkSh (s_seed (sh s)) (s_kseed (sh s)) (HashPIN p sd) (s_key (sh s))))
  | c_kread s i p : nth_error (pcs s) i = Some (S3 p) -> step may s (at_ s i (S4 p (s_kseed (sh s))) (sh s))
  | c_kwrite s i p sd : nth_error (pcs s) i = Some (S4 p sd) -> step may s (at_ s i (S5 p) (mkSh (s_seed (sh s)) (s_kseed (sh s)) (s_pin (sh s)) (HashPIN p sd)))
  | c_end s i p : nth_error (pcs s) i = Some (S5 p) -> step may s (mkS (sh s) (setpc (pcs s) i Idle) (fresh s) p)
  | l_start s i p : nth_error (pcs s) i = Some Idle -> may s (Login p) -> step may s (at_ s i (L1 p) (sh s))
  | l_read s i p : nth_error (pcs s) i = Some (L1 p) -> step may s (at_ s i (L2 p (s_seed (sh s))) (sh s))
  | l_yes s i p sd : nth_error (pcs s) i = Some (L2 p sd) -> HashPIN p sd = s_pin (sh s) -> step may s (at_ s i (L3 p) (sh s))
  | l_no s i p sd : nth_error (pcs s) i = Some (L2 p sd) -> HashPIN p sd <> s_pin (sh s) -> step may s (at_ s i (Refused p) (sh s))
  | l_kread s i p : nth_error (pcs s) i = Some (L3 p) -> step may s (at_ s i (L4 p (s_kseed (sh s))) (sh s))
  | l_kwrite s i p sd : nth_error (pcs s) i = Some (L4 p sd) -> step may s (at_ s i Idle (mkSh (s_seed (sh s)) (s_kseed (sh s)) (s_pin (sh s)) (HashPIN p sd)))
  | l_refused s i p : nth_error (pcs s) i = Some (Refused p) -> step may s (at_ s i Idle (sh s)).
  Inductive steps (may : state -> op -> Prop) : state -> state -> Prop :=
  | ss_0 s : steps may s s
  | ss_1 a b c : steps may a b -> step may b c -> steps may a c.
  (** [n] threads; the PIN is [p0], set earlier. *)
  Definition init (n p0 : nat) : state := mkS (mkSh 0 1 (HashPIN p0 0) (HashPIN p0 1)) (repeat Idle n) 2 p0.
  Definition changing (x : pc) : bool := match x with S1 _ | S2 _ _ | S3 _ | S4 _ _ | S5 _ => true | _ => false end.
  Definition logging (x : pc) : bool := match x with L1 _ | L2 _ _ | L3 _ | L4 _ _ => true | _ => false end.

  (** Computing runs: the thread to move, and what it starts if it is idle. *)
  Variable heqb : hash -> hash -> bool.
  Definition move (s : state) (i : nat) (o : op) : option state :=
    match nth_error (pcs s) i with
    | Some Idle => match o with
                   | Change p => Some (mkS (mkSh (fresh s) (S (fresh s)) (s_pin (sh s)) (s_key (sh s))) (setpc (pcs s) i (S1 p)) (S (S (fresh s))) (last s))
                   | Login p => Some (at_ s i (L1 p) (sh s))
                   end
    | Some (S1 p) => Some (at_ s i (S2 p (s_seed (sh s))) (sh s))
    | Some (S2 p sd) => Some (at_ s i (S3 p) (mkSh (s_seed (sh s)) (s_kseed (sh s)) (HashPIN p sd) (s_key (sh s))))
    | Some (S3 p) => Some (at_ s i (S4 p (s_kseed (sh s))) (sh s))
    | Some (S4 p sd) => Some (at_ s i (S5 p) (mkSh (s_seed (sh s)) (s_kseed (sh s)) (s_pin (sh s)) (HashPIN p sd)))
    | Some (S5 p) => Some (mkS (sh s) (setpc (pcs s) i Idle) (fresh s) p)
    | Some (L1 p) => Some (at_ s i (L2 p (s_seed (sh s))) (sh s))
    | Some (L2 p sd) => Some (at_ s i (if heqb (HashPIN p sd) (s_pin (sh s)) then L3 p else Refused p) (sh s))
    | Some (L3 p) => Some (at_ s i (L4 p (s_kseed (sh s))) (sh s))
    | Some (L4 p sd) => Some (at_ s i Idle (mkSh (s_seed (sh s)) (s_kseed (sh s)) (s_pin (sh s)) (HashPIN p sd)))
    | Some (Refused p) => Some (at_ s i Idle (sh s))
    | None => None
    end.
End Model.
Arguments mkSh {hash}. Arguments s_seed {hash}. Arguments s_kseed {hash}. Arguments s_pin {hash}. Arguments s_key {hash}.
Arguments mkS {hash}. Arguments sh {hash}. Arguments pcs {hash}. Arguments fresh {hash}. Arguments last {hash}. Arguments at_ {hash}.
