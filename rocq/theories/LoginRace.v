(** Concurrent C_Login calls: WP11_Slot_UserLogin internal.c 3974-4060 and
    WP11_Slot_SOLogin internal.c 3884-3958, as the sequence of critical sections
    each performs on the slot lock. [base] is WP11_USER_LOGIN_FAIL_TIMEOUT (60) or
    WP11_SO_LOGIN_FAIL_TIMEOUT (600).

    A critical section is one step (property C56 for sections under the write
    lock; SOLogin performs its first section, which may write soFailedLogin, under
    the read lock: taking it to be atomic only removes executions). Whether the
    given PIN is right is a boolean of the attempt; a PIN is set on the token. The
    decoding of token objects, the token key and (SO) the read-only session check
    are left out. *)
From Verif Require Import Base.

Definition MAXF : Z := 3.         (* WP11_MAX_LOGIN_FAILS_USER / _SO: internal.c *)

Inductive tpc :=
  | TIdle
  | TCheck (now : Z) (good : bool)   (* wc_GetTime done; before the first section *)
  | TCmp (now : Z) (good : bool)     (* passed the check; before CheckUserPin *)
  | TUpd (now : Z) (good : bool)     (* PIN compared; before the update section *)
  | TSet.                            (* before setting loginState *)

Record lk := mkK {
  k_failed : Z; k_last : Z; k_tmo : Z; k_in : bool;
  k_th : list tpc;
  k_cmp : nat                         (* ghost: number of wrong PINs compared *)
}.

Definition set_t (l : list tpc) (t : nat) (p : tpc) : list tpc :=
  firstn t l ++ p :: skipn (S t) l.

(** The lock-out test: internal.c 3907-3914 and 3999-4006. *)
Definition check (now : Z) (k : lk) : bool * Z :=   (* (passes, new failure count) *)
  if k_in k then (false, k_failed k)
  else if (k_failed k =? MAXF)%Z then
         if (k_last k + k_tmo k <? now)%Z then (true, 0%Z) else (false, k_failed k)
       else (true, k_failed k).

Section Base.
Variable base : Z.

(** One step of thread [t]. [a] is the attempt an idle thread starts: the time it
    reads and whether its PIN is right. *)
Definition kstep (k : lk) (t : nat) (a : Z * bool) : lk :=
  let go f l m i p c := mkK f l m i (set_t (k_th k) t p) c in
  match nth_error (k_th k) t with
  | None => k
  | Some TIdle => go (k_failed k) (k_last k) (k_tmo k) (k_in k) (TCheck (fst a) (snd a)) (k_cmp k)
  | Some (TCheck now good) =>
      let '(pass, f) := check now k in
      go f (k_last k) (k_tmo k) (k_in k) (if pass then TCmp now good else TIdle) (k_cmp k)
  | Some (TCmp now good) =>
      go (k_failed k) (k_last k) (k_tmo k) (k_in k) (TUpd now good)
         (if good then k_cmp k else S (k_cmp k))
  | Some (TUpd now good) =>
      if good then go 0%Z 0%Z 0%Z (k_in k) TSet (k_cmp k)
      else let f := (k_failed k + 1)%Z in
           if (f =? MAXF)%Z then go f now (k_tmo k + base)%Z (k_in k) TIdle (k_cmp k)
           else go f (k_last k) (k_tmo k) (k_in k) TIdle (k_cmp k)
  | Some TSet => go (k_failed k) (k_last k) (k_tmo k) true TIdle (k_cmp k)
  end.

Definition sched := list (nat * (Z * bool)).
Fixpoint krun (k : lk) (s : sched) : lk :=
  match s with [] => k | (t, a) :: r => krun (kstep k t a) r end.
End Base.

(** A token on which nobody is logged in and no login has failed. *)
Definition k_init (n : nat) : lk := mkK 0 0 0 false (repeat TIdle n) 0.
