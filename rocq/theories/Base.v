(** Common definitions: bytes, C integer conversions, results.

    Bytes are elements of [N]; a well-formed byte string satisfies [bytes_ok].
    CK_ULONG, size_t and time_t are 64 bits, word32/int are 32 bits (the LP64
    targets the sources are written for, e.g. internal.c 1208-1297 use
    [sizeof(CK_ULONG)], [sizeof(time_t)]). *)
From Coq Require Export List Arith ZArith NArith Lia Bool.
From Coq Require Export ZifyBool ZifyNat ZifyN.
Export ListNotations.

Arguments N.add : simpl never.
Arguments N.mul : simpl never.
Arguments N.sub : simpl never.
Arguments N.div : simpl never.
Arguments N.modulo : simpl never.
Arguments N.pow : simpl never.
Arguments Z.add : simpl never.
Arguments Z.mul : simpl never.
Arguments Z.sub : simpl never.
Arguments Z.div : simpl never.
Arguments Z.modulo : simpl never.
Arguments Z.pow : simpl never.
Arguments Z.of_nat : simpl never.
Arguments Z.to_nat : simpl never.

Notation byte := N (only parsing).
Notation bytes := (list N) (only parsing).

Definition byte_ok (b : N) : Prop := (b < 256)%N.
Definition byte_okb (b : N) : bool := N.ltb b 256.
Definition bytes_ok (l : list N) : Prop := Forall byte_ok l.
Definition bytes_okb (l : list N) : bool := forallb byte_okb l.

Lemma bytes_okb_spec l : bytes_okb l = true <-> bytes_ok l.
Proof.
  unfold bytes_okb, bytes_ok. rewrite forallb_forall, Forall_forall.
  unfold byte_okb, byte_ok. split; intros H x Hx; specialize (H x Hx); lia.
Qed.

(** Length of a byte string as an unbounded integer. *)
Definition zlen {A} (l : list A) : Z := Z.of_nat (length l).

Lemma zlen_nil A : @zlen A [] = 0%Z.
Proof. reflexivity. Qed.
Lemma zlen_cons A (x : A) l : zlen (x :: l) = (1 + zlen l)%Z.
Proof. unfold zlen. cbn [length]. lia. Qed.
Lemma zlen_app A (l m : list A) : zlen (l ++ m) = (zlen l + zlen m)%Z.
Proof. unfold zlen. rewrite app_length. lia. Qed.
Lemma zlen_nonneg A (l : list A) : (0 <= zlen l)%Z.
Proof. unfold zlen. lia. Qed.

(** Conversions between C integer types. *)
Definition u32 (z : Z) : Z := (z mod 2^32)%Z.             (* (word32)x *)
Definition u64 (z : Z) : Z := (z mod 2^64)%Z.             (* (CK_ULONG)x *)
Definition i32 (z : Z) : Z :=                              (* (int)x *)
  let m := (z mod 2^32)%Z in if (m <? 2^31)%Z then m else (m - 2^32)%Z.
Definition i64 (z : Z) : Z :=                              (* (time_t)x *)
  let m := (z mod 2^64)%Z in if (m <? 2^63)%Z then m else (m - 2^64)%Z.

(** Result of a modelled C function: a value, a C error code, or undefined
    behaviour (out-of-bounds access, use after free, ...). *)
Inductive ub :=
  | UB_write_overflow      (* write past the end of a buffer *)
  | UB_read_overflow       (* read outside a buffer *)
  | UB_use_after_free      (* access to a freed object *)
  | UB_null_deref
  | UB_diverge             (* non-terminating loop *)
  | UB_union.              (* member of a union read that was not written *)

Inductive res (A : Type) :=
  | Ok (a : A)
  | Err (code : Z)
  | Undef (u : ub).
Arguments Ok {A} a.
Arguments Err {A} code.
Arguments Undef {A} u.

Definition bind {A B} (r : res A) (f : A -> res B) : res B :=
  match r with Ok a => f a | Err e => Err e | Undef u => Undef u end.
Notation "x <- r ;; k" := (bind r (fun x => k))
  (at level 61, r at next level, right associativity).
Notation "' p <- r ;; k" := (bind r (fun x => match x with p => k end))
  (at level 61, p pattern, r at next level, right associativity).

(** Return codes of internal functions: internal.h 129-141 (WP11) and
    wolfCrypt's error-crypt.h (values used only as distinct tags). *)
Definition PIN_INVALID_E : Z := -1.
Definition PIN_NOT_SET_E : Z := -2.
Definition READ_ONLY_E : Z := -3.
Definition NOT_AVAILABLE_E : Z := -4.
Definition FIND_FULL_E : Z := -5.
Definition FIND_NO_MORE_E : Z := -6.
Definition SESSION_EXISTS_E : Z := -7.
Definition SESSION_COUNT_E : Z := -8.
Definition LOGGED_IN_E : Z := -9.
Definition OBJ_COUNT_E : Z := -10.
Definition OBJ_TYPE_E : Z := -11.
Definition PARAM_E : Z := -12.
Definition MEMORY_E : Z := -125.
Definition BUFFER_E : Z := -132.
Definition BAD_FUNC_ARG : Z := -173.
Definition AES_GCM_AUTH_E : Z := -180.
Definition BAD_STATE_E : Z := -192.

(** Pointwise update of a list element (struct field write through a pointer
    into an array); no effect out of range. *)
Fixpoint upd {A} (l : list A) (i : nat) (x : A) : list A :=
  match l, i with
  | [], _ => []
  | _ :: t, O => x :: t
  | h :: t, S j => h :: upd t j x
  end.

Lemma upd_length A (l : list A) i x : length (upd l i x) = length l.
Proof. revert i; induction l as [|h t IH]; intros [|i]; cbn; auto. Qed.

Lemma nth_error_upd_eq A (l : list A) i x :
  i < length l -> nth_error (upd l i x) i = Some x.
Proof.
  revert i; induction l as [|h t IH]; intros [|i]; cbn; intros; try lia; auto.
  apply IH; lia.
Qed.

Lemma nth_error_upd_ne A (l : list A) i j x :
  i <> j -> nth_error (upd l i x) j = nth_error l j.
Proof.
  revert i j; induction l as [|h t IH]; intros [|i] [|j]; cbn; intros; try lia; auto.
Qed.
