(** The memory of objects: what every call takes from the heap and gives back to it.
    Sys.v says which objects are in a list; here also those that never get into one. *)
From Verif Require Import Base Ops Object Store Sys.
From Coq Require Import List.
Import ListNotations.
Open Scope list_scope.

(** XMALLOC in wp11_Object_New (internal.c 1454-1475), XFREE in WP11_Object_Free
    (internal.c 4938-4975); objects are known by their identity. *)
Inductive mop := Alloc (u : nat) | Free (u : nat).

Section WithWorld.
Variable w : world.
Notation oe := (w_oe w).

Definition on_sess (s : sys) (h : Z) (k : session -> list mop) : list mop :=
  if (0 <? s_count s)%Z then match sess_get s h with Some x => k x | None => [] end else [].
Definition on_slot (s : sys) (slot : Z) (l : list mop) : list mop :=
  if andb (0 <? s_count s)%Z (slot_ok slot) then l else [].
Definition all_free (l : list obj) : list mop := map (fun o => Free (o_uid o)) l.

(** wp11_Session_Final: internal.c 584-590; its callers: 3255-3272, 3658-3703. *)
Definition sess_frees (x : session) : list mop := if in_use x then all_free (ss_objs x) else [].
Fixpoint unused_frees (l : list session) : list mop :=
  match l with
  | [] => []
  | x :: r => if andb (negb (in_use x)) (SESSION_MIN <? sess_id x)%Z then sess_frees x ++ unused_frees r else []
  end.
Definition close_frees (l : list session) (x : session) : list mop :=
  sess_frees x ++ match l with
  | y :: r => if andb (ss_h y =? ss_h x)%Z (SESSION_MIN <? sess_id x)%Z then unused_frees r else []
  | [] => []
  end.
Fixpoint dyn_frees (l : list session) : list mop :=
  match l with
  | [] => []
  | x :: r => if (SESSION_MIN <? sess_id x)%Z then sess_frees x ++ dyn_frees r else []
  end.
Fixpoint head_frees (n : nat) (l : list session) : list mop :=
  match n with
  | O => []
  | S m => match l with
           | [] => []
           | x :: r => sess_frees x ++ match sess_final x with Ok x' => head_frees m (x' :: r) | _ => [] end
           end
  end.
Definition close_all_frees (l : list session) : list mop :=
  dyn_frees l ++ match drop_dyn l with Ok l1 => head_frees (length l1) l1 | _ => [] end.
Definition final_frees (l : list session) : list mop := flat_map sess_frees l.

(** A new object that is then added: freed if that fails (C_CreateObject crypto.c
    753-755, C_CopyObject 840-844, C_GenerateKey 3653-3658, AddRSAPrivateKeyObject
    610-617). *)
Definition added (u : nat) (ok : bool) : list mop := if ok then [Alloc u] else [Alloc u; Free u].

(** NewObject: crypto.c 458-483: an object whose attributes are refused is freed. Where
    CreateObject refuses the template before that (crypto.c 672-712), nothing is
    allocated; the difference is not made. *)
Definition tr_Create (rnd : nat -> list N) (s : sys) (x : session) (t : template) : list mop :=
  let u := s_uid s in
  match CreateObject oe (is_rw x) u t with
  | Ok (_, Some o) => match AddObject w rnd (bump s 1) x t o with Ok (rv, _, _) => added u (rv =? CKR_OK)%Z | _ => [] end
  | Ok (_, None) => added u false
  | _ => []
  end.
Definition tr_Copy (rnd : nat -> list N) (s : sys) (x : session) (src : obj) (t : template) : list mop :=
  let u := s_uid s in
  match CopyObject oe (is_rw x) u src t with
  | Ok (_, _, Some (b, o)) => match AddToSession w rnd (bump s 1) x b o with Ok (c, _, _) => added u (c =? 0)%Z | _ => [] end
  | Ok (_, _, None) => added u false
  | _ => []
  end.
Definition tr_GenKey (rnd : nat -> list N) (s : sys) (x : session) (t : template) (key : list N) : list mop :=
  let u := s_uid s in
  match GenKey w rnd s x t key with
  | Ok (_, OutH rv _) => added u (rv =? CKR_OK)%Z
  | Ok _ => added u false
  | _ => []
  end.
(** C_GenerateKeyPair: crypto.c 3701-3843. Whatever fails, both objects made so far are
    freed at the end (3837-3840). *)
Definition tr_GenKeyPair (rnd : nat -> list N) (s : sys) (x : session) (m : kpmech) (tpub tpriv : template) (g : option gen) : list mop :=
  let u := s_uid s in
  match (match m with KP_RSA => Some CKK_RSA | KP_EC => Some CKK_EC | KP_DH => Some CKK_DH | KP_other => None end) with
  | None => []
  | Some ty =>
      match NewObject oe (is_rw x) u ty CKO_PUBLIC_KEY tpub with
      | Ok (_, None) => added u false
      | Ok (_, Some _) =>
          match NewObject oe (is_rw x) (S u) ty CKO_PRIVATE_KEY tpriv with
          | Ok (_, None) => Alloc u :: added (S u) false ++ [Free u]
          | Ok (_, Some _) =>
              match GenKeyPair w rnd s x m tpub tpriv g with
              | Ok (_, OutH2 _ _ _) => [Alloc u; Alloc (S u)]
              | Ok _ => [Alloc u; Alloc (S u); Free u; Free (S u)]
              | _ => []
              end
          | _ => []
          end
      | _ => []
      end
  end.
(** C_UnwrapKey, AddRSAPrivateKeyObject: crypto.c 545-619. *)
Definition tr_Unwrap (rnd : nat -> list N) (s : sys) (x : session) (m : mech) (mp : mparam) (uk : obj) (wrapped : list N) (t : template) : list mop :=
  match Unwrap w rnd s x m mp uk wrapped t with
  | Ok (_, OutH rv _) => added (s_uid s) (rv =? CKR_OK)%Z
  | _ => []
  end.
(** C_DeriveKey: crypto.c 4245-4275. An object made by CreateObject that does not get
    its key or cannot be added is not freed. *)
Definition tr_Derive (s : sys) (x : session) (m : dmech) (secret : option (list N)) (t : template) : list mop :=
  let u := s_uid s in
  match m, secret with
  | D_other, _ | _, None => []
  | _, Some _ =>
      match CreateObject oe (is_rw x) u t with
      | Ok (_, Some _) => [Alloc u]
      | Ok (_, None) => added u false
      | _ => []
      end
  end.
(** Every call. *)
Definition trace (rnd : nat -> list N) (s : sys) (c : op) : list mop :=
  match c with
  | OInitialize => if (s_count s =? 0)%Z then
      match Token_Load (w_se w) (s_fs s) (s_uid s) with Ok t => map (fun o => Alloc (o_uid o)) (t_objs t) | _ => [] end else []
  | OFinalize => if (s_count s - 1 =? 0)%Z then final_frees (s_sess s) ++ all_free (t_objs (s_tok s)) else []
  (* WP11_Slot_TokenReset (internal.c 3779-3797) was reached: it frees the objects, whether
     or not the new PIN can be set *)
  | OInitToken slot pin label => on_slot s slot (
      match InitToken w rnd s pin label with
      | Ok (_, OutRv rv) => if orb (rv =? CKR_OK)%Z (rv =? CKR_FUNCTION_FAILED)%Z then all_free (t_objs (s_tok s)) else []
      | _ => []
      end)
  | OCloseSession h => on_sess s h (fun x => close_frees (s_sess s) x)
  | OCloseAllSessions slot => on_slot s slot (close_all_frees (s_sess s))
  | OCreateObject h t => on_sess s h (fun x => if is_rw x then tr_Create rnd s x t else [])
  | OCopyObject h ho t => on_sess s h (fun x => if is_rw x then match find_obj s x ho with Some o => tr_Copy rnd s x o t | None => [] end else [])
  | ODestroyObject h ho => on_sess s h (fun x => if is_rw x then match find_obj s x ho with Some o => [Free (o_uid o)] | None => [] end else [])
  | OGenerateKey h aes t key => on_sess s h (fun x => if aes then tr_GenKey rnd s x t key else [])
  | OGenerateKeyPair h m tp tq g => on_sess s h (fun x => tr_GenKeyPair rnd s x m tp tq g)
  | OUnwrapKey h m mp hu wr t => on_sess s h (fun x => if is_rw x then
      if (zlen wr =? 0)%Z then [] else match find_obj s x hu with Some uk => tr_Unwrap rnd s x m mp uk wr t | None => [] end else [])
  | ODeriveKey h m hb sec t => on_sess s h (fun x => match find_obj s x hb with Some _ => tr_Derive s x m sec t | None => [] end)
  | _ => []
  end.

(** The heap: the objects allocated. Freeing one that is not is undefined. *)
Fixpoint give_back (u : nat) (hp : list nat) : option (list nat) :=
  match hp with
  | [] => None
  | v :: r => if (v =? u)%nat then Some r else match give_back u r with Some r' => Some (v :: r') | None => None end
  end.
Fixpoint heap_run (hp : list nat) (l : list mop) : option (list nat) :=
  match l with
  | [] => Some hp
  | Alloc u :: r => heap_run (u :: hp) r
  | Free u :: r => match give_back u hp with Some hp' => heap_run hp' r | None => None end
  end.
(** The process ending gives everything back. *)
Definition heap_step (rnd : nat -> list N) (s : sys) (hp : list nat) (c : op) : option (list nat) :=
  match c with ORestart => Some [] | _ => heap_run hp (trace rnd s c) end.
(** A history. *)
Inductive hreach (d : fs) : sys -> list nat -> list (op * out) -> Prop :=
  | hreach_0 : hreach d (sys0 d) [] []
  | hreach_step s hp h rnd c s' o hp' : hreach d s hp h -> step w rnd s c = Ok (s', o) -> heap_step rnd s hp c = Some hp' ->
      hreach d s' hp' (h ++ [(c, o)]).
End WithWorld.
