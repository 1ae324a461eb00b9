(** Reference machine for the values of attributes (C123): what was last written into an attribute, and so what
    C_GetAttributeValue returns. It contains the machine for object handles of Table.v and knows calls and answers, not objects. *)
From Verif Require Import Base Ops Object Store Sys Device Table.

(** The attributes followed: usage flags, label, id, dates and class. *)
Definition followed : list Z :=
  [CKA_ENCRYPT; CKA_DECRYPT; CKA_SIGN; CKA_SIGN_RECOVER; CKA_VERIFY; CKA_VERIFY_RECOVER; CKA_WRAP; CKA_DERIVE;
   CKA_LABEL; CKA_ID; CKA_START_DATE; CKA_END_DATE; CKA_CLASS].
Definition is_followed (ty : Z) : bool := existsb (Z.eqb ty) followed.
Definition is_date (ty : Z) : bool := orb (ty =? CKA_START_DATE)%Z (ty =? CKA_END_DATE)%Z.
Definition is_text (ty : Z) : bool := orb (ty =? CKA_LABEL)%Z (ty =? CKA_ID)%Z.

(** Whose object handle [ho] stands for in session [h]: the token's ([None]) or the session's. *)
Definition owner (h ho : Z) : option Z := if (2^28 <=? ho)%Z then None else Some h.
Definition same_owner (a b : option Z) : bool :=
  match a, b with None, None => true | Some x, Some y => (x =? y)%Z | _, _ => false end.
(** What is known of each attribute of each object. *)
Definition memory := option Z -> Z -> Z -> option (list N).
Definition nothing_known : memory := fun _ _ _ => None.
Record notes := Notes { n_tab : table; n_val : memory }.
Definition notes0 : notes := Notes table0 nothing_known.

(** ** What a template tells *)
(** Entries that may change [ty]: its own, and those for CKA_UNWRAP, which shares its flag with CKA_WRAP. *)
Definition touches (ty : Z) (a : attr) : bool := orb (a_type a =? ty)%Z (andb (ty =? CKA_WRAP)%Z (a_type a =? CKA_UNWRAP)%Z).
(** Values that read back as written: bytes, of a length that can be told, and dates that are set. *)
Definition lasting (ty : Z) (v : list N) : bool :=
  andb (andb (bytes_okb v) (zlen v <? UNAVAILABLE)%Z) (if is_date ty then negb (nth 0 v 0 =? 0)%N else true).
Definition tells (ty : Z) (a : attr) : option (list N) :=
  if andb (a_type a =? ty)%Z (is_followed ty) then match a_val a with AV v => if lasting ty v then Some v else None | _ => None end else None.
(** The last entry counts. *)
Fixpoint told (t : template) (ty : Z) : option (list N) :=
  match t with
  | [] => None
  | a :: r => if existsb (touches ty) r then told r ty else tells ty a
  end.

(** ** Moves *)
Definition of_set (t : template) (was : Z -> option (list N)) : Z -> option (list N) := fun ty => if existsb (touches ty) t then told t ty else was ty.
Definition of_failed (t : template) (was : Z -> option (list N)) : Z -> option (list N) := fun ty => if existsb (touches ty) t then None else was ty.
Definition write (f : memory) (k : option Z) (ho : Z) (g : Z -> option (list N)) : memory :=
  fun k' ho' => if andb (same_owner k' k) (ho' =? ho)%Z then g else f k' ho'.
(** Answers of C_SetAttributeValue that say nothing was written. *)
Definition untouched (rv : Z) : bool :=
  existsb (Z.eqb rv) [CKR_CRYPTOKI_NOT_INITIALIZED; CKR_SESSION_HANDLE_INVALID; CKR_SESSION_READ_ONLY; CKR_OBJECT_HANDLE_INVALID; CKR_ATTRIBUTE_TYPE_INVALID].
Definition memory_next (n : notes) (c : op) (o : out) : memory :=
  let f := n_val n in
  match c with
  | OInitialize => if (d_count (b_dev (n_tab n)) =? 0)%Z then nothing_known else f
  | OSetAttributeValue h ho t =>
      if (out_rv o =? CKR_OK)%Z then write f (owner h ho) ho (of_set t (f (owner h ho) ho))
      else if untouched (out_rv o) then f else write f (owner h ho) ho (of_failed t (f (owner h ho) ho))
  | OGenerateKeyPair h _ tp tq _ => match o with OutH2 rv h1 h2 => if (rv =? CKR_OK)%Z then write (write f (owner h h1) h1 (told tp)) (owner h h2) h2 (told tq) else f | _ => f end
  | OCopyObject h _ _ => match o with OutH rv ho => if (rv =? CKR_OK)%Z then write f (owner h ho) ho (fun _ => None) else f | _ => f end
  | _ => match makes c, o with
         | Some (h, t), OutH rv ho => if (rv =? CKR_OK)%Z then write f (owner h ho) ho (told t) else f
         | _, _ => f
         end
  end.
Definition notes_next (stored : list Z) (n : notes) (c : op) (o : out) : notes := Notes (table_next stored (n_tab n) c o) (memory_next n c o).

(** ** Answers *)
(** The entry after the call: a NULL pointer asks for the length; a buffer must have the value's length, or more for
    label and id. [None]: nothing is said. *)
Definition filled (ty : Z) (v : list N) (b : aval) : option aval :=
  match b with
  | ANull _ => Some (ANull (zlen v))
  | AV buf => if orb (zlen buf =? zlen v)%Z (andb (is_text ty) (zlen v <=? zlen buf)%Z) then Some (AV v) else None
  | AUnav _ => None
  end.
Fixpoint answer (f : Z -> option (list N)) (t : template) : option template :=
  match t with
  | [] => Some []
  | a :: r => match f (a_type a), answer f r with
              | Some v, Some r' => match filled (a_type a) v (a_val a) with Some b => Some (mkA (a_type a) b :: r') | None => None end
              | _, _ => None
              end
  end.
Definition notes_say (n : notes) (c : op) (o : out) : Prop :=
  table_says (n_tab n) c o /\
  forall h ho t rw t', c = OGetAttributeValue h ho t -> (0 < d_count (b_dev (n_tab n)))%Z -> d_mode (b_dev (n_tab n)) h = Some rw ->
    listed (n_tab n) h ho = true -> answer (n_val n (owner h ho) ho) t = Some t' -> o = OutT CKR_OK t'.
(** A history of calls and answers that the machine allows, and the notes it ends with. *)
Inductive noting : notes -> list op -> list out -> notes -> Prop :=
  | nt_nil n : noting n [] [] n
  | nt_cons n c o stored cs os n' : notes_say n c o -> noting (notes_next stored n c o) cs os n' -> noting n (c :: cs) (o :: os) n'.
