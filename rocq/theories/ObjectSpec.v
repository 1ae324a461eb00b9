(** What the object properties talk about, in terms of the C_* calls only. *)
From Verif Require Import Base Ops Object.

Section Spec.
Variable oe : oenv.

(** C_GetAttributeValue with a buffer of the right size returns exactly [b]. *)
Definition api_reads (o : obj) (ty : Z) (b : list N) : Prop :=
  forall buf, zlen buf = zlen b ->
    GetAttributeValue oe o [mkA ty (AV buf)] = Ok (CKR_OK, [mkA ty (AV b)]).

(** C_GetAttributeValue with pValue NULL reports length [l]. *)
Definition api_query (o : obj) (ty l : Z) : Prop :=
  GetAttributeValue oe o [mkA ty (ANull 0)] = Ok (CKR_OK, [mkA ty (ANull l)]).

End Spec.

(** Attribute types by value type, from the PKCS #11 v2.40 tables. *)
Definition std_ulong : list Z :=
  [0x0; 0x80; 0x87; 0x8C; 0x100; 0x121; 0x133; 0x160; 0x161; 0x166; 0x300]%Z.
Definition std_bool_no_token : list Z :=
  [0x2; 0x86; 0x103; 0x104; 0x105; 0x106; 0x107; 0x108; 0x109; 0x10A; 0x10B; 0x10C; 0x162; 0x163;
   0x164; 0x165; 0x170; 0x171; 0x172; 0x202; 0x210; 0x301; 0x302]%Z.
Definition std_bool : list Z := 0x1%Z :: std_bool_no_token.
Definition std_date : list Z := [0x110; 0x111]%Z.
Definition std_bytes : list Z :=
  [0x3; 0x10; 0x11; 0x12; 0x81; 0x82; 0x83; 0x84; 0x85; 0x88; 0x89; 0x8A; 0x8B; 0x90; 0x101; 0x102;
   0x120; 0x122; 0x123; 0x124; 0x125; 0x126; 0x127; 0x128; 0x129; 0x130; 0x132; 0x180; 0x181;
   0x40000211; 0x40000212; 0x40000213; 0x40000600]%Z.

(** An entry no valid template can contain; [bools] lists the boolean types. *)
Definition bad_entry (bools : list Z) (a : attr) : Prop :=
  ~ In (a_type a) (std_ulong ++ std_bool ++ std_date ++ std_bytes) \/
  (In (a_type a) bools /\ a_len a <> 1%Z) \/
  (In (a_type a) (std_ulong ++ std_date) /\ a_len a <> 8%Z).

(** The value bytes an object holds, whatever its flags say. *)
Definition stored_value (o : obj) : option (list N) :=
  match o_data o with
  | KSym l b | KDh _ _ l b | KCert l b => Some (firstn (Z.to_nat l) b)
  | _ => None
  end.

(** Attributes whose stored form C25 speaks about. *)
Definition usage_attrs : list Z :=
  [CKA_ENCRYPT; CKA_DECRYPT; CKA_SIGN; CKA_SIGN_RECOVER; CKA_VERIFY; CKA_VERIFY_RECOVER;
   CKA_WRAP; CKA_UNWRAP; CKA_DERIVE].
Definition protection_attrs : list Z :=
  [CKA_PRIVATE; CKA_SENSITIVE; CKA_EXTRACTABLE; CKA_MODIFIABLE; CKA_ALWAYS_SENSITIVE;
   CKA_NEVER_EXTRACTABLE; CKA_ALWAYS_AUTHENTICATE; CKA_WRAP_WITH_TRUSTED; CKA_TRUSTED].
Definition text_attrs : list Z := [CKA_LABEL; CKA_ID; CKA_START_DATE; CKA_END_DATE].

(** Histories of attribute calls on one object: C_SetAttributeValue (in a session
    that is read/write or not), C_GetAttributeValue, and the template match made
    by C_FindObjectsInit. *)
Inductive hop := HSet (rw : bool) (t : template) | HGet (t : template) | HMatch (t : template).
Inductive hout := OSet (rv : Z) | OGet (rv : Z) (t : template) | OMatch (b : bool).

(** WP11_Session_Find, inner loop: internal.c 4884-4890. *)
Fixpoint match_all (oe : oenv) (o : obj) (t : template) : res bool :=
  match t with
  | [] => Ok true
  | a :: r => b <- MatchAttr oe o a ;; if b then match_all oe o r else Ok false
  end.
Definition hstep (oe : oenv) (o : obj) (h : hop) : res (obj * hout) :=
  match h with
  | HSet rw t => '(rv, o') <- SetAttributeValue oe rw o t ;; Ok (o', OSet rv)
  | HGet t => '(rv, t') <- GetAttributeValue oe o t ;; Ok (o, OGet rv t')
  | HMatch t => b <- match_all oe o t ;; Ok (o, OMatch b)
  end.
(** The outputs seen, ending in [Undef] if the code runs into it. *)
Fixpoint hrun (oe : oenv) (o : obj) (hs : list hop) : list (res hout) :=
  match hs with
  | [] => []
  | h :: r => match hstep oe o h with
              | Ok (o', x) => Ok x :: hrun oe o' r
              | Err e => [Err e]
              | Undef u => [Undef u]
              end
  end.
