(** C_Initialize, C_Finalize and any other call from several threads:
    WP11_Library_Init (internal.c 3443-3468), WP11_Library_Final (3474-3496) and
    WP11_Library_IsInitialized (3504-3517), the first thing every other call does
    (e.g. crypto.c 870).

    libraryInitCount is tested before globalLock is taken, so the test, the work
    that follows it and the locked update are separate steps.  What the set-up
    creates and the tear-down destroys (globalLock, globalRandom and the slots) is
    one thing, [alive].  Not modelled: failure of the set-up, the int range of the
    count; a call inside the library uses it in one step. *)
From Coq Require Import List Arith Bool ZArith.
Import ListNotations.

Inductive op := Init | Final | Call.
Inductive pc :=
| Idle
| SettingUp   (* found the count 0: internal.c 3448 *)
| Counting    (* about to lock and count: 3461-3464 *)
| TearingDown (* counted down to 0: 3482 *)
| Asking      (* found the count positive: 3507; about to lock and read it again *)
| Inside.     (* IsInitialized returned 1; about to use the slots *)
(** libraryInitCount, whether the library's locks and slots exist, whether they were
    used or destroyed while they did not exist or set up while they did. *)
Record shared := mkSh { cnt : Z; alive : bool; bad : bool }.
Record state := mkS { sh : shared; pcs : list pc }.
Fixpoint setpc (l : list pc) (i : nat) (x : pc) : list pc :=
  match l, i with [], _ => [] | _ :: r, O => x :: r | y :: r, S j => y :: setpc r j x end.
Definition at_ (s : state) (i : nat) (x : pc) (h : shared) : state := mkS h (setpc (pcs s) i x).

Definition touch (h : shared) : shared := mkSh (cnt h) (alive h) (orb (bad h) (negb (alive h))).
Definition count (h : shared) (d : Z) : shared := mkSh (cnt h + d)%Z (alive h) (bad h).
(** internal.c 3449-3459. *)
Definition set_up (h : shared) : shared := mkSh (cnt h) true (orb (bad h) (alive h)).
(** internal.c 3483-3494. *)
Definition tear_down (h : shared) : shared := mkSh (cnt h) false (orb (bad h) (negb (alive h))).

Definition move (s : state) (i : nat) (o : op) : option state :=
  let h := sh s in
  match nth_error (pcs s) i with
  | None => None
  | Some Idle => Some
      match o with
      | Init => at_ s i (if (cnt h =? 0)%Z then SettingUp else Counting) h
      | Final => at_ s i (if (cnt h - 1 =? 0)%Z then TearingDown else Idle) (count (touch h) (-1))
      | Call => at_ s i (if (0 <? cnt h)%Z then Asking else Idle) h
      end
  | Some SettingUp => Some (at_ s i Counting (set_up h))
  | Some Counting => Some (at_ s i Idle (count (touch h) 1))
  | Some TearingDown => Some (at_ s i Idle (tear_down h))
  | Some Asking => Some (at_ s i (if (0 <? cnt h)%Z then Inside else Idle) (touch h))
  | Some Inside => Some (at_ s i Idle (touch h))
  end.
(** [may s o]: callers start [o] only in such states. *)
Inductive steps (may : state -> op -> Prop) : state -> state -> Prop :=
| ss_0 s : steps may s s
| ss_1 a b c i o : steps may a b -> (nth_error (pcs b) i = Some Idle -> may b o) ->
    move b i o = Some c -> steps may a c.
Definition init (n : nat) : state := mkS (mkSh 0%Z false false) (repeat Idle n).
