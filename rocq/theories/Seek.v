(** Reference machine for searches (C121). It sees calls and answers only: for every session handle whether a
    search is active and which handles C_FindObjects has still to deliver. It says what this library does, which is
    more than PKCS#11 allows; what PKCS#11 asks for is [searching]. *)
From Verif Require Import Base Ops Object Store Sys LoginProofs PropSys1 PropSys2 Device Table.

(** ** What PKCS#11 asks for: a search is active in session [h] if C_FindObjectsInit on [h] was answered CKR_OK and since then
    neither C_FindObjectsFinal nor the end of the session. *)
Definition searching1 (h : Z) (b : bool) (c : op) (o : out) : bool :=
  match c with
  | OFindObjectsInit h' _ => if andb (h' =? h)%Z (out_rv o =? CKR_OK)%Z then true else b
  | OFindObjectsFinal h' | OCloseSession h' => if andb (h' =? h)%Z (out_rv o =? CKR_OK)%Z then false else b
  | OCloseAllSessions _ => if (out_rv o =? CKR_OK)%Z then false else b
  | OFinalize | ORestart => false
  | _ => b
  end.
Fixpoint searching (h : Z) (b : bool) (cs : list op) (os : list out) : bool :=
  match cs, os with c :: cs, o :: os => searching h (searching1 h b c o) cs os | _, _ => b end.

(** ** The machine *)
Record seek := Seek { k_dev : dev; k_on : Z -> bool; k_rest : Z -> list Z }.
Definition seek0 : seek := Seek dev0 (fun _ => false) (fun _ => []).
Definition set_at {A} (f : Z -> A) (h : Z) (v : A) : Z -> A := fun h' => if (h' =? h)%Z then v else f h'.
(** The numbers that have a place: 1 and 2, and all up to the greatest in use. What was found in a place stays there. *)
Definition has_place (d : dev) (h : Z) : bool :=
  orb (orb (h =? H 1) (h =? H 2))%Z (andb (H 1 <=? h)%Z (existsb (fun n => andb (h <=? H n)%Z (is_open d (H n))) numbers)).
(** CKA_TOKEN is given and is not one byte (the last one counts). *)
Fixpoint token_unreadable (t : template) : bool :=
  match t with
  | [] => false
  | a :: r => if existsb is_token r then token_unreadable r
              else andb (is_token a) (match a_val a with AV [_] => false | _ => true end)
  end.
(** C_FindObjects counts in an int. *)
Definition as_count (n : Z) : nat := Z.to_nat (if (n mod 2^32 <? 2^31)%Z then (n mod 2^32) else 0)%Z.
Definition seek_says (k : seek) (c : op) (o : out) : Prop :=
  says (k_dev k) c o /\
  match c with
  | OFindObjectsInit h t => on_session (k_dev k) h o (fun _ =>
      o = OutRv (if k_on k h then CKR_OPERATION_ACTIVE else if token_unreadable t then CKR_ATTRIBUTE_VALUE_INVALID else CKR_OK))
  | OFindObjects h n => on_session (k_dev k) h o (fun _ => o = OutHs CKR_OK (firstn (as_count n) (k_rest k h)))
  | OFindObjectsFinal h => on_session (k_dev k) h o (fun _ => o = OutRv CKR_OK)
  | _ => True
  end.
(** [found]: what C_FindObjectsInit found. *)
Definition seek_next (found : list Z) (k : seek) (c : op) (o : out) : seek :=
  let d := next (k_dev k) c o in
  match c with
  | OFindObjectsInit h _ =>
      if (out_rv o =? CKR_OK)%Z then Seek d (set_at (k_on k) h true) (set_at (k_rest k) h found)
      else if (out_rv o =? CKR_ATTRIBUTE_VALUE_INVALID)%Z then Seek d (set_at (k_on k) h true) (set_at (k_rest k) h [])   (* see C60 *)
      else k
  | OFindObjects h _ => match o with OutHs _ l => Seek d (k_on k) (set_at (k_rest k) h (skipn (length l) (k_rest k h))) | _ => k end
  | OFindObjectsFinal h => if (out_rv o =? CKR_OK)%Z then Seek d (set_at (k_on k) h false) (k_rest k) else k
  | OCloseSession h =>
      if (out_rv o =? CKR_OK)%Z then Seek d (fun h' => andb (has_place d h') (set_at (k_on k) h false h')) (fun h' => if has_place d h' then k_rest k h' else []) else k
  | OCloseAllSessions _ =>
      if (out_rv o =? CKR_OK)%Z then Seek d (fun h' => andb (h' =? H 1)%Z (k_on k h')) (fun h' => if orb (h' =? H 1)%Z (h' =? H 2)%Z then k_rest k h' else []) else k
  | OFinalize => if (d_count (k_dev k) =? 1)%Z then seek0 else Seek d (k_on k) (k_rest k)
  | ORestart => seek0
  | _ => Seek d (k_on k) (k_rest k)
  end.
(** A history of calls and answers that the machine allows, and where it ends. *)
Inductive seeks : seek -> list op -> list out -> seek -> Prop :=
  | sk_nil k : seeks k [] [] k
  | sk_cons k c o found cs os k' : (length found <= 10)%nat -> seek_says k c o -> seeks (seek_next found k c o) cs os k' -> seeks k (c :: cs) (o :: os) k'.
