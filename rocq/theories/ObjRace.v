(** Creating, using and destroying token objects from several threads:
    WP11_Session_AddObject (internal.c 4639-4676), WP11_Object_Find (5445-5478),
    C_DestroyObject (crypto.c 863-885) with WP11_Session_RemoveObject
    (internal.c 4705-4742), and C_GetAttributeValue standing for every call that
    uses an object found by its handle (crypto.c 944-987, internal.c 5906-5920).

    WP11_Object_Find gives up token.lock before its caller uses the pointer, so
    finding, using, unlinking and freeing are separate steps; what is done while
    holding the lock is one step.  An object is a number, never used again after
    it has been freed.  Not modelled: contents of objects, storage, failure. *)
From Coq Require Import List Arith Bool ZArith.
Import ListNotations.

Definition WP11_TOKEN_OBJECT_CNT_MAX : Z := 64. (* wolfpkcs11/internal.h 73-75 *)
Inductive op := Create | Use (h : nat) | Destroy (h : nat).
Inductive pc :=
| Idle
| Using (h p : nat)      (* found [p]; about to use it *)
| Found (h p : nat)      (* C_DestroyObject found [p]; about to unlink it: crypto.c 881 *)
| Unlinked (h p : nat).  (* about to free it: crypto.c 882 *)
(** token.object as handles with objects, token.objCnt, the objects freed, the next
    new object, and whether a freed object has been touched. *)
Record shared := mkSh { objs : list (nat * nat); cnt : Z; freed : list nat; next : nat; bad : bool }.
Record state := mkS { sh : shared; pcs : list pc }.
Fixpoint setpc (l : list pc) (i : nat) (x : pc) : list pc := match l, i with [], _ => [] | _ :: r, O => x :: r | y :: r, S j => y :: setpc r j x end.
Definition lookup (s : shared) (h : nat) : option nat := option_map snd (find (fun e => fst e =? h) (objs s)).
Definition dead (s : shared) (p : nat) : bool := existsb (Nat.eqb p) (freed s).
Definition touch (s : shared) (p : nat) : shared := mkSh (objs s) (cnt s) (freed s) (next s) (orb (bad s) (dead s p)).
(** internal.c 4651-4671: the handle after that of the first object. *)
Definition add (s : shared) : shared :=
  if (WP11_TOKEN_OBJECT_CNT_MAX <=? cnt s)%Z then s
  else mkSh ((match objs s with (h, _) :: _ => S h | [] => 1 end, next s) :: objs s) (cnt s + 1)%Z (freed s) (S (next s)) (bad s).
(** internal.c 4711-4732: the count goes down whether or not the object is found in the list. *)
Fixpoint unlink (l : list (nat * nat)) (p : nat) : list (nat * nat) := match l with [] => [] | (h, q) :: r => if q =? p then r else (h, q) :: unlink r p end.
Definition remove (s : shared) (p : nat) : shared := mkSh (unlink (objs s) p) (cnt s - 1)%Z (freed s) (next s) (bad s).
(** WP11_Object_Free: internal.c 4938-4976. *)
Definition free (s : shared) (p : nat) : shared := mkSh (objs s) (cnt s) (p :: freed s) (next s) (bad s).

Definition at_ (s : state) (i : nat) (x : pc) (h : shared) : state := mkS h (setpc (pcs s) i x).
Definition move (s : state) (i : nat) (o : op) : option state :=
  match nth_error (pcs s) i with
  | None => None
  | Some Idle =>
      match o with
      | Create => Some (at_ s i Idle (add (sh s)))
      | Use h => Some (match lookup (sh s) h with Some p => at_ s i (Using h p) (sh s) | None => s end)
      | Destroy h => Some (match lookup (sh s) h with Some p => at_ s i (Found h p) (sh s) | None => s end)
      end
  | Some (Using h p) => Some (at_ s i Idle (touch (sh s) p))
  | Some (Found h p) => Some (at_ s i (Unlinked h p) (remove (touch (sh s) p) p))
  | Some (Unlinked h p) => Some (at_ s i Idle (free (touch (sh s) p) p))
  end.
(** [may s o]: callers start [o] only in such states. *)
Inductive steps (may : state -> op -> Prop) : state -> state -> Prop :=
| ss_0 s : steps may s s
| ss_1 a b c i o : steps may a b -> (nth_error (pcs b) i = Some Idle -> may b o) -> move b i o = Some c -> steps may a c.
Definition init (n : nat) : state := mkS (mkSh [] 0%Z [] 0 false) (repeat Idle n).
