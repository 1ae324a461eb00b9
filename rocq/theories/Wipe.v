(** What is left of a key in memory: the memory of an object when it is given back,
    and what of it is a key value. *)
From Verif Require Import Base Ops Object Store.
From Coq Require Import List.
Import ListNotations.
Open Scope list_scope.

(** WP11_Object_Free: internal.c 4938-4975. What the object's memory holds when it is
    given back. wc_FreeRsaKey and wc_ecc_free clear the numbers of the key,
    wc_FreeDhKey the parameters of a DH key; the memory of label, identifier and
    keyData is given back as it is. *)
Definition Object_Free (o : obj) : obj :=
  if (o_class o =? CKO_CERTIFICATE)%Z then
    match o_data o with KCert l b => set_data o (KCert l (overlay b (zeros (Z.to_nat l)))) | _ => o end
  else if (o_type o =? CKK_RSA)%Z then match o_data o with KRsa _ => set_data o (KRsa rsa0) | _ => o end
  else if (o_type o =? CKK_EC)%Z then match o_data o with KEc _ => set_data o (KEc ec0) | _ => o end
  else if (o_type o =? CKK_DH)%Z then match o_data o with KDh _ _ l b => set_data o (KDh 0 0 l b) | _ => o end
  else if orb (o_type o =? CKK_AES)%Z (o_type o =? CKK_GENERIC_SECRET)%Z then
    match o_data o with KSym l b => set_data o (KSym l (overlay b (zeros (Z.to_nat l)))) | _ => o end
  else o.
