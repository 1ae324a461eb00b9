(** The information structures: C_GetInfo (wolfpkcs11.c 152-178), C_GetSlotInfo
    (slot.c 66-101), C_GetTokenInfo (slot.c 103-216), C_GetSessionInfo (slot.c
    801-820), with every field. gmtime is a parameter: its result is an argument. *)
From Verif Require Import Base Ops Object Store Sys.
From Coq Require Export String Ascii.
From Coq Require Import List.
Import ListNotations.
Open Scope nat_scope.
Open Scope list_scope.

(** A text literal as bytes. *)
Definition str (s : string) : list N := map N_of_ascii (list_ascii_of_string s).
(** A character array of [n] bytes initialised by a literal: the rest is zero. *)
Definition chars (n : nat) (s : string) : list N := firstn n (str s ++ repeat 0%N n).
(** Assignment to one element. *)
Definition poke (i : nat) (b : N) (l : list N) : list N := firstn i l ++ b :: skipn (S i) l.
(** [((x / d) % 10) + '0'] stored in an unsigned char. *)
Definition dig (x d : Z) : N := Z.to_N ((Z.rem (x ÷ d) 10 + 48) mod 256).

(** [w] decimal digits of [n], the last ones first. *)
Fixpoint digits_rev (w : nat) (n : N) : list N := match w with O => [] | S w' => (n mod 10)%N :: digits_rev w' (n / 10)%N end.
Definition digits (w : nat) (n : N) : list N := rev (digits_rev w n).
(** HEX_VERSION: m4/hexversion.m4 3-4.  sed removes the last number of the version, awk prints two digits of
    the first and three of the second and the missing third number after "0x"; the compiler reads it in base 16
    (version.h 32). *)
Definition HEX_VERSION (major minor : N) : N :=
  fold_left (fun h d => 16 * h + d)%N (digits 2 major ++ digits 3 minor ++ digits 3 0) 0%N.
(** WOLFPKCS11_MAJOR_VERSION, WOLFPKCS11_MINOR_VERSION (internal.h 50-51) in fields of one byte. *)
Definition VERSION_BYTES (hex : N) : N * N := ((hex / 2^24) mod 256, (hex / 2^16) mod 256)%N.
(** configure.ac 10: version 1.3.0. *)
Definition LIB_VERSION : N * N := VERSION_BYTES (HEX_VERSION 1 3).
Definition CRYPTOKI_VERSION : N * N := (2, 40)%N.
Definition UNAVAILABLE : Z := 2 ^ 64 - 1.

(** CK_INFO: pkcs11.h 368-374. *)
Record ck_info := mkInfo { i_cryptoki : N * N; i_manufacturer : list N; i_flags : Z; i_description : list N; i_version : N * N }.
(** wolfpkcs11Info, C_GetInfo: wolfpkcs11.c 152-178. *)
Definition GetInfo : ck_info := mkInfo CRYPTOKI_VERSION (chars 32 "wolfpkcs11") 0 (chars 32 "Implementation using wolfCrypt") LIB_VERSION.

(** CK_SLOT_INFO: pkcs11.h 382-389. *)
Record slot_info := mkSlotInfo { sl_description : list N; sl_manufacturer : list N; sl_flags : Z; sl_hw : N * N; sl_fw : N * N }.
Definition CKF_TOKEN_PRESENT : Z := 1.
Definition SLOT_ID_IDX : nat := 20.
(** slotInfoTemplate, C_GetSlotInfo: slot.c 66-101. The slot number is unsigned. *)
Definition GetSlotInfo (slot : Z) : slot_info :=
  mkSlotInfo (poke (SLOT_ID_IDX + 1) (dig slot 1) (poke SLOT_ID_IDX (dig slot 10) (chars 64 "wolfSSL HSM slot ID xx")))
             (chars 32 "wolfpkcs11") CKF_TOKEN_PRESENT LIB_VERSION LIB_VERSION.

(** CK_TOKEN_INFO: pkcs11.h 394-413. *)
Record token_info := mkTokInfo {
  ti_label : list N; ti_manufacturer : list N; ti_model : list N; ti_serial : list N; ti_flags : Z;
  ti_max_sess : Z; ti_sess : Z; ti_max_rw : Z; ti_rw : Z; ti_max_pin : Z; ti_min_pin : Z;
  ti_total_pub : Z; ti_free_pub : Z; ti_total_priv : Z; ti_free_priv : Z; ti_hw : N * N; ti_fw : N * N; ti_utc : list N }.
(** pkcs11.h 90-107. *)
Definition CKF_RNG : Z := 0x1.
Definition CKF_LOGIN_REQUIRED : Z := 0x4.
Definition CKF_USER_PIN_INITIALIZED : Z := 0x8.
Definition CKF_CLOCK_ON_TOKEN : Z := 0x40.
Definition CKF_TOKEN_INITIALIZED : Z := 0x400.
Definition CKF_USER_PIN_COUNT_LOW : Z := 0x10000.
Definition CKF_USER_PIN_FINAL_TRY : Z := 0x20000.
Definition CKF_USER_PIN_LOCKED : Z := 0x40000.
Definition CKF_SO_PIN_COUNT_LOW : Z := 0x100000.
Definition CKF_SO_PIN_FINAL_TRY : Z := 0x200000.
Definition CKF_SO_PIN_LOCKED : Z := 0x400000.
(** struct tm, as gmtime fills it. *)
Record tm := mkTm { tm_year : Z; tm_mon : Z; tm_mday : Z; tm_hour : Z; tm_min : Z; tm_sec : Z }.
(** slot.c 154-176: fourteen digits over "YYYYMMDDhhmmss00"; zeros without gmtime. *)
Definition utc_digits (t : option tm) : list N :=
  match t with
  | Some t => [dig (1900 + tm_year t) 1000; dig (1900 + tm_year t) 100; dig (1900 + tm_year t) 10; dig (1900 + tm_year t) 1;
               dig (1 + tm_mon t) 10; dig (1 + tm_mon t) 1; dig (tm_mday t) 10; dig (tm_mday t) 1;
               dig (tm_hour t) 10; dig (tm_hour t) 1; dig (tm_min t) 10; dig (tm_min t) 1; dig (tm_sec t) 10; dig (tm_sec t) 1]
  | None => str "00000000000000"
  end.
Definition on (b : bool) (f : Z) (acc : Z) : Z := if b then Z.lor acc f else acc.
(** slot.c 182-214: the lock flag is in the else branch of the final-try flag. *)
Definition role_flags (p : pin) (now low final locked acc : Z) : Z :=
  let acc := on (0 <? p_fail p)%Z low acc in
  if (p_fail p =? MAX_FAILS - 1)%Z then Z.lor acc final
  else on (andb (p_fail p =? MAX_FAILS)%Z (now <? p_last p + p_tmo p)%Z) locked acc.
(** tokenInfoTemplate, C_GetTokenInfo: slot.c 103-216. *)
Definition GetTokenInfo (t : token) (slot now : Z) (g : option tm) : token_info :=
  let fl := Z.lor (Z.lor CKF_RNG CKF_CLOCK_ON_TOKEN) CKF_LOGIN_REQUIRED in
  let fl := role_flags (t_so t) now CKF_SO_PIN_COUNT_LOW CKF_SO_PIN_FINAL_TRY CKF_SO_PIN_LOCKED fl in
  let fl := role_flags (t_user t) now CKF_USER_PIN_COUNT_LOW CKF_USER_PIN_FINAL_TRY CKF_USER_PIN_LOCKED fl in
  let fl := on (t_init t) CKF_TOKEN_INITIALIZED fl in
  let fl := on (0 <? p_len (t_user t))%Z CKF_USER_PIN_INITIALIZED fl in
  mkTokInfo (shown_label t) (chars 32 "wolfpkcs11") (chars 16 "wolfpkcs11")
    (poke 15 (dig slot 1) (poke 14 (dig slot 10) (chars 16 "0000000000000000"))) fl
    SESSION_MAX UNAVAILABLE SESSION_MAX UNAVAILABLE 32 4 UNAVAILABLE UNAVAILABLE UNAVAILABLE UNAVAILABLE
    LIB_VERSION LIB_VERSION (utc_digits g ++ str "00").

(** CK_SESSION_INFO: pkcs11.h 425-430; C_GetSessionInfo: slot.c 801-820. The slot
    field keeps what the caller had in it. *)
Record sess_info := mkSessInfo { si_slot : Z; si_state : Z; si_flags : Z; si_error : Z }.
Definition GetSessionInfo (t : token) (x : session) (old : sess_info) : sess_info :=
  mkSessInfo (si_slot old) (GetState t x) (CKF_SERIAL_SESSION + (if is_rw x then CKF_RW_SESSION else 0)) 0.
