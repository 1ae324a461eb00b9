(** Reference machine for the object handles (C120): which handles stand for an object, for whom, and which handle a
    new object gets. It knows calls and answers, not objects, and contains the machine for sessions of Device.v. *)
From Verif Require Import Base Ops Object Store Sys Device.

(** The handles of the token objects and, for each session handle, those of its session objects; newest first. *)
Record table := Table { b_dev : dev; b_tok : list Z; b_of : Z -> list Z }.
Definition nothing_of : Z -> list Z := fun _ => [].
Definition table0 : table := Table dev0 [] nothing_of.
Definition listed (b : table) (h ho : Z) : bool := existsb (Z.eqb ho) (b_tok b ++ b_of b h).

(** ** What is asked for *)
(** CKA_TOKEN of a template: its last occurrence counts; false if there is none. *)
Definition is_token (a : attr) : bool := (a_type a =? CKA_TOKEN)%Z.
Fixpoint wants_token (t : template) : bool :=
  match t with
  | [] => false
  | a :: r => if existsb is_token r then wants_token r
              else andb (is_token a) (match a_val a with AV [b] => (b =? 1)%N | _ => false end)
  end.
(** The session and the template of the calls that make one object. *)
Definition makes (c : op) : option (Z * template) :=
  match c with
  | OCreateObject h t | OCopyObject h _ t | OGenerateKey h _ t _ | OUnwrapKey h _ _ _ _ t | ODeriveKey h _ _ _ t => Some (h, t)
  | _ => None
  end.
(** Calls that begin an operation with a key. *)
Definition begins (c : call) : bool := match c with KEncryptInit _ _ _ | KDecryptInit _ _ _ | KSignInit _ _ _ | KVerifyInit _ _ _ => true | _ => false end.
(** The object handles a call names, in the order they are looked at, each with the answer if it stands for nothing. *)
Definition names (c : op) : list (Z * Z) :=
  match c with
  | OCopyObject _ ho _ | ODestroyObject _ ho | OGetAttributeValue _ ho _ | OSetAttributeValue _ ho _ | ODeriveKey _ _ ho _ _ => [(ho, CKR_OBJECT_HANDLE_INVALID)]
  | OWrapKey _ _ _ hw hk _ => [(hk, CKR_OBJECT_HANDLE_INVALID); (hw, CKR_WRAPPING_KEY_HANDLE_INVALID)]
  | OUnwrapKey _ _ _ hu (_ :: _) _ => [(hu, CKR_UNWRAPPING_KEY_HANDLE_INVALID)]
  | OCrypto _ k hk => if begins k then [(hk, CKR_OBJECT_HANDLE_INVALID)] else []
  | _ => []
  end.
Fixpoint refusal (b : table) (h : Z) (l : list (Z * Z)) : option Z :=
  match l with [] => None | (ho, rv) :: r => if listed b h ho then refusal b h r else Some rv end.

(** ** New handles *)
Definition following (first : Z) (l : list Z) : Z := match l with [] => first | h :: _ => (h + 1)%Z end.
(** [ho] is the handle for an object made through session [h] from [t], and there is room for it. *)
Definition new_for (b : table) (h : Z) (t : template) (ho : Z) : Prop :=
  if wants_token t then ho = following (2^28 + 1) (b_tok b) /\ (zlen (b_tok b) < 64)%Z
  else ho = following 1 (b_of b h) /\ (zlen (b_of b h) < 8)%Z.
Definition with_of (f : Z -> list Z) (h : Z) (l : list Z) : Z -> list Z := fun h' => if (h' =? h)%Z then l else f h'.
Definition put_new (b : table) (h : Z) (t : template) (ho : Z) : table :=
  if wants_token t then Table (b_dev b) (ho :: b_tok b) (b_of b) else Table (b_dev b) (b_tok b) (with_of (b_of b) h (ho :: b_of b h)).

(** ** Answers *)
(** The session of a call on objects. *)
Definition through (c : op) : option Z :=
  match c with
  | OCreateObject h _ | OCopyObject h _ _ | ODestroyObject h _ | OGetAttributeValue h _ _ | OSetAttributeValue h _ _ | OWrapKey h _ _ _ _ _
  | OUnwrapKey h _ _ _ _ _ | OGenerateKey h _ _ _ | OGenerateKeyPair h _ _ _ _ | ODeriveKey h _ _ _ _ | OCrypto h _ _ => Some h
  | _ => None
  end.
Definition needs_rw (c : op) : bool :=
  match c with OCopyObject _ _ _ | ODestroyObject _ _ | OSetAttributeValue _ _ _ | OWrapKey _ _ _ _ _ _ | OUnwrapKey _ _ _ _ _ _ => true | _ => false end.
Definition lookup_says (b : table) (h : Z) (c : op) (o : out) : Prop :=
  match refusal b h (names c) with
  | Some rv => o = OutRv rv
  | None => match c with
            | ODestroyObject _ _ => o = OutRv CKR_OK
            | OGetAttributeValue _ _ _ => exists rv l, o = OutT rv l
            | _ => True
            end
  end.
Definition table_says (b : table) (c : op) (o : out) : Prop :=
  says (b_dev b) c o /\
  (* handles named *)
  (forall h rw, through c = Some h -> (0 < d_count (b_dev b))%Z -> d_mode (b_dev b) h = Some rw -> (needs_rw c = true -> rw = true) -> lookup_says b h c o) /\
  (* handles given out *)
  (forall h t ho, makes c = Some (h, t) -> o = OutH CKR_OK ho -> d_mode (b_dev b) h = Some true /\ new_for b h t ho) /\
  (forall h m tp tq g rv h1 h2, c = OGenerateKeyPair h m tp tq g -> o = OutH2 rv h1 h2 ->
     rv = CKR_OK /\ d_mode (b_dev b) h = Some true /\ new_for b h tp h1 /\ new_for (put_new b h tp h1) h tq h2).

(** ** Moves. [stored]: the list C_Initialize finds in the storage. *)
Definition on_dev (b : table) (d : dev) : table := Table d (b_tok b) (b_of b).
Definition without_h (ho : Z) (l : list Z) : list Z := filter (fun x => negb (x =? ho)%Z) l.
Definition table_next (stored : list Z) (b : table) (c : op) (o : out) : table :=
  let b1 := on_dev b (next (b_dev b) c o) in
  match c with
  | OInitialize => if (d_count (b_dev b) =? 0)%Z then Table (b_dev b1) stored nothing_of else b1
  | OFinalize => if (d_count (b_dev b) =? 1)%Z then Table (b_dev b1) [] nothing_of else b1
  | ORestart => Table (b_dev b1) [] nothing_of
  | OInitToken _ _ _ => if orb (out_rv o =? CKR_OK)%Z (out_rv o =? CKR_FUNCTION_FAILED)%Z then Table (b_dev b1) [] (b_of b) else b1
  | OGenerateKeyPair h _ tp tq _ => match o with OutH2 rv h1 h2 => if (rv =? CKR_OK)%Z then put_new (put_new b1 h tp h1) h tq h2 else b1 | _ => b1 end
  | ODestroyObject h ho => if (out_rv o =? CKR_OK)%Z then Table (b_dev b1) (without_h ho (b_tok b)) (with_of (b_of b) h (without_h ho (b_of b h))) else b1
  | OCloseSession h => if (out_rv o =? CKR_OK)%Z then Table (b_dev b1) (b_tok b) (with_of (b_of b) h []) else b1
  | OCloseAllSessions _ => if (out_rv o =? CKR_OK)%Z then Table (b_dev b1) (b_tok b) (fun h => if (h =? H 1)%Z then b_of b h else []) else b1
  | _ => match makes c, o with
         | Some (h, t), OutH rv ho => if (rv =? CKR_OK)%Z then put_new b1 h t ho else b1
         | _, _ => b1
         end
  end.
(** A history of calls and answers that the machine allows, and the table it ends with. *)
Inductive tables : table -> list op -> list out -> table -> Prop :=
  | tb_nil b : tables b [] [] b
  | tb_cons b c o stored cs os b' : table_says b c o -> tables (table_next stored b c o) cs os b' -> tables b (c :: cs) (o :: os) b'.
