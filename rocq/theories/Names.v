(** The names of the token's files: wolfPKCS11_Store_Open, internal.c 707-860 (file
    storage), and the file system addressed by these names. *)
From Verif Require Import Base Ops Object Store Info.
From Coq Require Import List.
Import ListNotations.
Open Scope nat_scope.
Open Scope list_scope.

(** %016lx: sixteen lower-case hexadecimal digits of an unsigned long. *)
Definition hexdig (n : N) : N := (if n <? 10 then 48 + n else 87 + n)%N.
Fixpoint hexn (n : nat) (x : Z) : list N :=
  match n with 0 => [] | S m => hexn m (x / 16) ++ [hexdig (Z.to_N (x mod 16))] end.
Definition hex16 (x : Z) : list N := hexn 16 x.
(** The formats: internal.c 792-836. *)
Definition prefix (k : fkind) : list N :=
  match k with
  | F_TOKEN => str "wp11_token_" | F_OBJECT => str "wp11_obj_" | F_SYMMKEY => str "wp11_symmkey_"
  | F_RSA_PRIV => str "wp11_rsakey_priv_" | F_RSA_PUB => str "wp11_rsakey_pub_"
  | F_ECC_PRIV => str "wp11_ecckey_priv_" | F_ECC_PUB => str "wp11_ecckey_pub_"
  | F_DH_PRIV => str "wp11_dhkey_priv_" | F_DH_PUB => str "wp11_dhkey_pub_" | F_CERT => str "wp11_cert_"
  end.
Definition suffix (k : fkind) (id1 id2 : Z) : list N :=
  match k with F_TOKEN => hex16 id1 | _ => hex16 id1 ++ str "_" ++ hex16 id2 end.
Definition full_name (path : list N) (k : fkind) (id1 id2 : Z) : list N := path ++ str "/" ++ prefix k ++ suffix k id1 id2.
(** char name[120]; paths longer than sizeof(name) - 47 are refused (722, 787-790);
    snprintf keeps the first 119 characters. *)
Definition NAME_SIZE : nat := 120.
Definition file_name (path : list N) (k : fkind) (id1 id2 : Z) : option (list N) :=
  if NAME_SIZE - 47 <? length path then None else Some (firstn (NAME_SIZE - 1) (full_name path k id1 id2)).

(** ** A file system addressed by names *)
Definition disk := list N -> option (list N).
Definition nset (d : disk) (n v : list N) : disk := fun m => if list_eq_dec N.eq_dec m n then Some v else d m.
(** The token's files are those of slot 1: internal.c 3453-3486, 4096, 4149, 4674, 4738. *)
Definition nm (path : list N) (f : fname) : list N :=
  match file_name path (fst f) 1 (Z.of_nat (snd f)) with Some n => n | None => [] end.
Definition napply1 (path : list N) (d : disk) (w : wop) : disk :=
  match w with
  | WOpen f => nset d (nm path f) []
  | WWrite f b => nset d (nm path f) (match d (nm path f) with Some c => c | None => [] end ++ b)
  end.
Definition napply (path : list N) (d : disk) (l : list wop) : disk := fold_left (napply1 path) l d.
(** What a process finds. *)
Definition view (path : list N) (d : disk) : fs := fun f => d (nm path f).
