(** Reference machine for token objects across restarts (C124): what the files hold, and so what the next C_Initialize finds.
    It contains the machine for attributes of Note.v and knows calls and answers, not objects or files. *)
From Verif Require Import Base Ops Object Store Sys Device Table Note.

(** The handles of token objects and what is known of their attributes. *)
Definition content := (list Z * (Z -> Z -> option (list N)))%type.
(** [a_saved]: what the files hold while the library is down, if that is known. [a_clean]: while it is up, that the files hold
    the token's objects as they are. *)
Record archive := Archive { a_now : notes; a_clean : bool; a_saved : option content }.
Definition count (a : archive) : Z := d_count (b_dev (n_tab (a_now a))).
Definition current (n : notes) : content := (b_tok (n_tab n), n_val n None).
(** At first there are no files. *)
Definition archive0 : archive := Archive notes0 true (Some ([], fun _ _ => None)).

(** C_Initialize reads the files. [stored]: the list it finds when nothing is known. *)
Definition reads (a : archive) (c : op) : bool := match c with OInitialize => (count a =? 0)%Z | _ => false end.
Definition found (stored : list Z) (a : archive) : list Z := match a_saved a with Some (l, _) => l | None => stored end.
Definition recalled (a : archive) : memory :=
  match a_saved a with Some (_, g) => fun k => match k with None => g | Some _ => fun _ _ => None end | None => nothing_known end.
Definition now_next (stored : list Z) (a : archive) (c : op) (o : out) : notes :=
  let n := notes_next (found stored a) (a_now a) c o in
  if reads a c then Notes (n_tab n) (recalled a) else n.
(** Setting attributes of a token object is the only change that is not stored at once; whatever adds or removes a
    token object stores all of them. *)
Definition unsaved (c : op) (o : out) : bool :=
  match c with OSetAttributeValue _ ho _ => andb (2^28 <=? ho)%Z (negb (untouched (out_rv o))) | _ => false end.
Definition same_list (a b : list Z) : bool := if list_eq_dec Z.eq_dec a b then true else false.
Definition clean_next (a : archive) (n : notes) (c : op) (o : out) : bool :=
  if reads a c then true
  else if unsaved c o then false
  else if same_list (b_tok (n_tab n)) (b_tok (n_tab (a_now a))) then a_clean a else true.
(** C_Finalize stores everything; a process that just ends leaves the files as they are. *)
Definition saved_next (a : archive) (c : op) : option content :=
  match c with
  | OFinalize => if (count a =? 1)%Z then Some (current (a_now a)) else a_saved a
  | ORestart => if (count a <=? 0)%Z then a_saved a else if a_clean a then Some (current (a_now a)) else None
  | _ => a_saved a
  end.
Definition archive_next (stored : list Z) (a : archive) (c : op) (o : out) : archive :=
  let n := now_next stored a c o in Archive n (clean_next a n c o) (saved_next a c).
(** A history of calls and answers that the machine allows, and the archive it ends with. *)
Inductive archiving : archive -> list op -> list out -> archive -> Prop :=
  | ar_nil a : archiving a [] [] a
  | ar_cons a c o stored cs os a' : notes_say (a_now a) c o -> archiving (archive_next stored a c o) cs os a' -> archiving a (c :: cs) (o :: os) a'.
