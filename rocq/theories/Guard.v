(** Reference machine for the PINs (C119), on top of the one for sessions and login (Device.v). It knows nothing of
    hashes, seeds, keys or storage: a PIN is a text that is the right one or not. *)
From Verif Require Import Base Ops Object Store Sys LoginProofs PropSys1 PropSys2 Device.

(** For each role: which texts are its PIN ([None]: there is no PIN yet), how many wrong ones were given since the
    last right one or the end of the last lock-out, when the last lock-out began, and how long it lasts. *)
Record guard := Guard { q_pin : option (list N -> bool); q_wrong : Z; q_since : Z; q_wait : Z }.
(** The sessions and the login, whether the token is initialised, and the two PINs. *)
Record lib := Lib { l_dev : dev; l_made : bool; l_guard : role -> guard }.
Definition text_eqb (a b : list N) : bool := if list_eq_dec N.eq_dec a b then true else false.
Definition no_pin : guard := Guard None 0 0 0.
Definition new_pin (p : list N) (g : guard) : guard := Guard (Some (text_eqb p)) (q_wrong g) (q_since g) (q_wait g).
Definition at_role (f : role -> guard) (r : role) (g : guard) : role -> guard :=
  fun r' => match r, r' with SO, SO | User, User => g | _, _ => f r' end.
Definition accepts (g : guard) (a : list N) : option bool := match q_pin g with None => None | Some f => Some (f a) end.
(** Three wrong PINs lock the role for the time of the lock-out, which grows with each lock-out. *)
Definition locked_out (g : guard) (now : Z) : bool := andb (q_wrong g =? 3)%Z (now <=? q_since g + q_wait g)%Z.
Definition unlocked (g : guard) : guard := if (q_wrong g =? 3)%Z then Guard (q_pin g) 0 (q_since g) (q_wait g) else g.
Definition lock_time (r : role) : Z := match r with SO => 600 | User => 60 end.
Definition wrong_pin (r : role) (now : Z) (g : guard) : guard :=
  if (q_wrong g =? 2)%Z then Guard (q_pin g) 3 now (q_wait g + lock_time r) else Guard (q_pin g) (q_wrong g + 1) (q_since g) (q_wait g).
Definition right_pin (g : guard) : guard := Guard (q_pin g) 0 0 0.

(** C_Login for role [r] with a PIN of allowed length: the return value, where it is known, and the new guard. The
    only answer not known is that to the right user PIN, where decrypting the private objects may fail. *)
Definition try_login (m : lib) (r : role) (a : list N) (now : option Z) : option Z * guard :=
  let g := l_guard m r in
  match now with
  | None => (Some CKR_PIN_INCORRECT, g)
  | Some n =>
      match d_who (l_dev m) with
      | Some _ => (Some CKR_USER_ALREADY_LOGGED_IN, g)
      | None =>
          if locked_out g n then (Some CKR_PIN_INCORRECT, g)
          else if match r with SO => any_ro (l_dev m) | User => false end then (Some CKR_SESSION_READ_ONLY_EXISTS, unlocked g)
          else match accepts g a with
               | None => (Some CKR_USER_PIN_NOT_INITIALIZED, unlocked g)
               | Some false => (Some CKR_PIN_INCORRECT, wrong_pin r n (unlocked g))
               | Some true => (match r with SO => Some CKR_OK | User => None end, right_pin g)
               end
      end
  end.
Definition role_of (ut : Z) : option role := if (ut =? 0)%Z then Some SO else if (ut =? 1)%Z then Some User else None.
(** The PIN that C_SetPIN changes. *)
Definition own_role (d : dev) : role := match d_who d with Some SO => SO | _ => User end.
(** C_InitToken with a PIN of allowed length: refused, or carried out? *)
Definition may_init (m : lib) (p : list N) : option Z :=
  if l_made m then
    if any_open (l_dev m) then Some CKR_SESSION_EXISTS
    else match accepts (l_guard m SO) p with Some true => None | _ => Some CKR_PIN_INCORRECT end
  else None.
(** C_InitPIN and C_SetPIN: the role whose PIN the call changes, if it gets so far. *)
Definition init_pin (m : lib) (h : Z) (p : list N) : bool :=
  andb (0 <? d_count (l_dev m))%Z (andb (is_open (l_dev m) h) (andb (good_pin p) (match d_who (l_dev m) with Some SO => true | _ => false end))).
Definition set_pin_ok (m : lib) (h : Z) (old new : list N) : bool :=
  andb (0 <? d_count (l_dev m))%Z (andb (match d_mode (l_dev m) h with Some rw => rw | None => false end) (andb (andb (good_pin old) (good_pin new))
    (match accepts (l_guard m (own_role (l_dev m))) old with Some true => true | _ => false end))).
(** The warnings of C_GetTokenInfo: a wrong PIN was given; one try left; locked. *)
Definition warnings (g : guard) (now : Z) : bool * bool * bool :=
  ((0 <? q_wrong g)%Z, (q_wrong g =? 2)%Z, andb (q_wrong g =? 3)%Z (now <? q_since g + q_wait g)%Z).

(** What a call may answer: as in Device.v, and for the calls that have to do with PINs: *)
Definition answers (m : lib) (c : op) (o : out) : Prop :=
  says (l_dev m) c o /\
  match c with
  | OLogin h ut p now => on_session (l_dev m) h o (fun _ =>
      match good_pin p, role_of ut with
      | true, Some r => match fst (try_login m r p now) with Some rv => o = OutRv rv | None => exists rv, o = OutRv rv end
      | _, _ => True
      end)
  | OInitToken slot p _ => on_slot (l_dev m) slot o (
      if good_pin p then o = OutRv (match may_init m p with Some rv => rv | None => CKR_OK end) else True)
  | OInitPIN h p => if init_pin m h p then rv_in o [CKR_OK; CKR_FUNCTION_FAILED] else True
  | OSetPIN h old new => on_session (l_dev m) h o (fun rw =>
      if andb rw (andb (good_pin old) (good_pin new)) then
        match accepts (l_guard m (own_role (l_dev m))) old with
        | None => o = OutRv CKR_USER_PIN_NOT_INITIALIZED
        | Some false => o = OutRv CKR_PIN_INCORRECT
        | Some true => rv_in o [CKR_OK; CKR_FUNCTION_FAILED]
        end
      else True)
  | OGetTokenInfo slot now => on_slot (l_dev m) slot o (exists label set,
      o = OutTok CKR_OK label (warnings (l_guard m SO) now) (warnings (l_guard m User) now) (l_made m) set)
  | _ => True
  end.
(** What it does. Only what C_Initialize finds in the storage is not known. *)
Definition moves (m : lib) (c : op) (o : out) (m' : lib) : Prop :=
  l_dev m' = next (l_dev m) c o /\
  let same := l_made m' = l_made m /\ (forall r, l_guard m' r = l_guard m r) in
  let to f := l_made m' = l_made m /\ (forall r, l_guard m' r = f r) in
  match c with
  | OInitialize => if (d_count (l_dev m) =? 0)%Z then True else same
  | OFinalize => if (d_count (l_dev m) =? 1)%Z then True else same
  | ORestart => True
  | OLogin h ut p now =>
      match good_pin p, role_of ut, andb (0 <? d_count (l_dev m))%Z (is_open (l_dev m) h) with
      | true, Some r, true => to (at_role (l_guard m) r (snd (try_login m r p now)))
      | _, _, _ => same
      end
  | OInitToken slot p _ =>
      if (out_rv o =? CKR_OK)%Z then l_made m' = true /\ l_guard m' SO = new_pin p no_pin /\ l_guard m' User = no_pin else same
  | OInitPIN h p => if init_pin m h p then to (at_role (l_guard m) User (new_pin p (l_guard m User))) else same
  | OSetPIN h old new =>
      if set_pin_ok m h old new then let r := own_role (l_dev m) in to (at_role (l_guard m) r (new_pin new (l_guard m r))) else same
  | _ => same
  end.
Fixpoint accords (m : lib) (cs : list op) (os : list out) : Prop :=
  match cs, os with
  | [], [] => True
  | c :: cs, o :: os => answers m c o /\ exists m', moves m c o m' /\ accords m' cs os
  | _, _ => False
  end.
Definition lib0 : lib := Lib dev0 false (fun _ => no_pin).
(** The PINs in a history. *)
Definition pins_of (c : op) : list (list N) :=
  match c with OInitToken _ p _ | OInitPIN _ p | OLogin _ _ p _ => [p] | OSetPIN _ p q => [p; q] | _ => [] end.
Definition all_pins (cs : list op) : list (list N) := flat_map pins_of cs.
