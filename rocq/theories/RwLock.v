(** The read/write lock of internal.c 343-491 under arbitrary interleaving.

    Any number of threads run any number of lock/unlock pairs. Each C statement
    that touches shared data (the mutexes and [cnt]) is one atomic step; [cnt] is
    only touched while holding [read]. The mutexes are modelled as binary
    semaphores (any thread may release them), with the identity of the thread that
    locked [write] recorded on the side. wc_LockMutex / wc_UnLockMutex never fail.
    The int [cnt] is unbounded here: it never exceeds the number of threads. *)
From Verif Require Import Base.

(** Where a thread is. *)
Inductive pc :=
  | Idle
  | RO1   (* LockRO: waiting for wc_LockMutex(&lock->read)          internal.c 446 *)
  | RO2   (* LockRO: holds read, about to ++cnt                     internal.c 448 *)
  | RO3   (* LockRO: cnt became 1, waiting for write                internal.c 449 *)
  | RO4   (* LockRO: about to unlock read                           internal.c 455 *)
  | Reading
  | UR1   (* UnlockRO: waiting for read                             internal.c 473 *)
  | UR2   (* UnlockRO: holds read, about to --cnt                   internal.c 475 *)
  | UR3   (* UnlockRO: cnt became 0, about to unlock write          internal.c 476 *)
  | UR4   (* UnlockRO: about to unlock read                         internal.c 482 *)
  | RW1   (* LockRW: waiting for write                              internal.c 410 *)
  | Writing.

Record lst := mkL {
  l_rd : bool;           (* read mutex held *)
  l_wr : option nat;     (* write mutex: the thread that locked it *)
  l_cnt : Z;
  l_th : list pc         (* program counter of each thread *)
}.

Definition set_pc (l : list pc) (t : nat) (p : pc) : list pc :=
  firstn t l ++ p :: skipn (S t) l.

(** WP11_Lock_Init: internal.c 371-387. *)
Definition l_init (n : nat) : lst := mkL false None 0 (repeat Idle n).

(** What an idle thread decides to do next. *)
Inductive want := WantRO | WantRW.

(** One step of thread [t]; [None] if it is blocked or does not exist. *)
Definition lstep (s : lst) (t : nat) (w : want) : option lst :=
  let go rd wr cnt p := Some (mkL rd wr cnt (set_pc (l_th s) t p)) in
  match nth_error (l_th s) t with
  | None => None
  | Some p =>
    match p with
    | Idle => match w with
              | WantRO => go (l_rd s) (l_wr s) (l_cnt s) RO1
              | WantRW => go (l_rd s) (l_wr s) (l_cnt s) RW1
              end
    | RO1 => if l_rd s then None else go true (l_wr s) (l_cnt s) RO2
    | RO2 => let c := (l_cnt s + 1)%Z in
             if (c =? 1)%Z then go (l_rd s) (l_wr s) c RO3
             else go (l_rd s) (l_wr s) c RO4
    | RO3 => match l_wr s with
             | Some _ => None
             | None => go (l_rd s) (Some t) (l_cnt s) RO4
             end
    | RO4 => go false (l_wr s) (l_cnt s) Reading
    | Reading => go (l_rd s) (l_wr s) (l_cnt s) UR1
    | UR1 => if l_rd s then None else go true (l_wr s) (l_cnt s) UR2
    | UR2 => let c := (l_cnt s - 1)%Z in
             if (c =? 0)%Z then go (l_rd s) (l_wr s) c UR3
             else go (l_rd s) (l_wr s) c UR4
    | UR3 => go (l_rd s) None (l_cnt s) UR4
    | UR4 => go false (l_wr s) (l_cnt s) Idle
    | RW1 => match l_wr s with
             | Some _ => None
             | None => go (l_rd s) (Some t) (l_cnt s) Writing
             end
    | Writing => go (l_rd s) None (l_cnt s) Idle
    end
  end.

(** A schedule is a list of (thread, choice); blocked choices change nothing. *)
Fixpoint lrun (s : lst) (sched : list (nat * want)) : lst :=
  match sched with
  | [] => s
  | (t, w) :: r => lrun (match lstep s t w with Some s' => s' | None => s end) r
  end.
