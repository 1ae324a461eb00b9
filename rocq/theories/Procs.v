(** Several processes using the same token directory. Each has a library of its own
    (Sys.v); the files are shared, and nothing else: the library takes no file locks
    (wolfPKCS11_Store_Open: internal.c 707-865) and looks at the files in C_Initialize
    only (wp11_Token_Load: internal.c 3028-3146). *)
From Verif Require Import Base Object Store Sys.
From Coq Require Import List.
Import ListNotations.
Open Scope list_scope.

(** The files and, for every process, its memory; the files recorded in a process's
    state are not used. *)
Record procs := mkProcs { m_fs : fs; m_at : nat -> sys }.
Definition on (d : fs) (s : sys) : sys := mkSys (s_count s) (s_sess s) (s_tok s) d (s_log s) (s_uid s).
Definition start (d : fs) : procs := mkProcs d (fun _ => sys0 d).
(** A call of one process, run to its end; [ORestart]: the process ends and another
    takes its place. *)
Definition event := (nat * op * (nat -> list N))%type.
Definition mstep (w : world) (m : procs) (e : event) : res (procs * out) :=
  let '(i, c, rnd) := e in
  '(s, o) <- step w rnd (on (m_fs m) (m_at m i)) c ;;
  Ok (mkProcs (s_fs s) (fun j => if (j =? i)%nat then s else m_at m j), o).
Fixpoint mrun (w : world) (m : procs) (l : list event) : res (procs * list out) :=
  match l with
  | [] => Ok (m, [])
  | e :: r => '(m1, o) <- mstep w m e ;; '(m2, os) <- mrun w m1 r ;; Ok (m2, o :: os)
  end.
